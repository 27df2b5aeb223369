(** * A concrete deployment, used to show that the hypotheses of theorems are met
    and to refute over-optimistic claims.  Everything here is evaluated by
    [vm_compute] on the executable model. *)
From Verif Require Import Base Types Token Emitter Factory Backstop PoolReserve PoolUser PoolHealth
  PoolAuction PoolSubmit PoolEmis PoolAdmin World Facts Spec.

(** addresses: tokens *)
Notation BLND := 100 (only parsing).
Notation USDC := 101 (only parsing).
Notation LP := 102 (only parsing).
Notation AAA := 103 (only parsing).
Notation BBB := 104 (only parsing).
(** oracle *)
Notation ORC := 50 (only parsing).
(** accounts *)
Notation admin := 10 (only parsing).
Notation alice := 11 (only parsing).
Notation bob := 12 (only parsing).
Notation carol := 13 (only parsing).
Notation dave := 14 (only parsing).

Definition tok0 : Tok := mkTok (list_to_map
  [((BLND, LP), 1000000000000000); ((USDC, LP), 1000000000000000);
   ((LP, admin), 1000000000000); ((LP, alice), 1000000000000); ((LP, bob), 1000000000000); ((LP, carol), 1000000000000);
   ((AAA, alice), 1000000000000); ((AAA, bob), 1000000000000); ((AAA, carol), 1000000000000);
   ((BBB, alice), 1000000000000); ((BBB, bob), 1000000000000); ((BBB, carol), 1000000000000)]) ∅.
Definition orc0 (t pa pb : Z) : Oracle := mkOracle (list_to_map [(ORC, 7)])
  (list_to_map [((ORC, AAA), (pa, t)); ((ORC, BBB), (pb, t)); ((ORC, USDC), (10000000, t)); ((ORC, BLND), (500000, t))]).
Definition t0 : Z := 1713139200.
Definition sc0 : World := genesis t0 1000 tok0 (orc0 t0 10000000 10000000) 10000000000000.

Lemma sc0_initial : initial sc0.
Proof.
  exists t0, 1000, tok0, (orc0 t0 10000000 10000000), 10000000000000. split; [done|]. split; [by vm_compute|]. split; [by vm_compute|].
  split; [|split; by vm_compute]. split.
  - intros tok a b H. assert (map_Forall (fun _ b => 0 <= b <= i128_max) (tk_bal tok0)) as Hm; [|by eapply Hm in H].
    refine (bool_decide_eq_true_1 _ _). by vm_compute.
  - intros tok a s b l H. by vm_compute in H.
Qed.
Lemma sc_reachable l : reachable (run sc0 l). Proof. exists sc0, l. split; [apply sc0_initial|done]. Qed.

(** every operation of the history succeeds *)
Fixpoint all_ok (w : World) (l : list Op) : bool :=
  match l with [] => true | o :: l' => match exec w o with Ok (_, w') => all_ok w' l' | Err _ => false end end.

Definition P1 : Addr := Eval vm_compute in dep_addr admin 1.
Definition P2 : Addr := Eval vm_compute in dep_addr admin 2.

(** emitter, backstop and factory initialized, two pools deployed *)
Definition ops_deploy : list Op :=
  [OExt [] (EInit BLND bs_addr LP); OExt [] (FInit bs_addr BLND); OExt [] (BInit LP em_addr USDC BLND fac_addr []);
   ODeploy [admin] admin 1 ORC 2000000 4; ODeploy [admin] admin 2 ORC 1000000 4].
(** two backstop depositors, both pools in the reward zone *)
Definition ops_backstop : list Op :=
  ops_deploy ++
  [OExt [alice] (BDeposit alice P1 500000000000); OExt [bob] (BDeposit bob P2 250000000000);
   OExt [] BUpdTkn; OExt [] (BAddReward P1 P1); OExt [] (BAddReward P2 P2)].
(** one day of emissions distributed *)
Definition ops_emit : list Op :=
  ops_backstop ++ [OTick 86400 17280; OExt [] EDistribute; OExt [] BGulp].
Definition sc_emit : World := run sc0 ops_emit.
Lemma ops_emit_ok : all_ok sc0 ops_emit = true. Proof. by vm_compute. Qed.

(** what a transaction returns; [None] if it fails *)
Definition ret (w : World) (o : Op) : option Out := match exec w o with Ok (out, _) => Some out | Err _ => None end.
Lemma ret_exec w o out : ret w o = Some out -> exists w', exec w o = Ok (out, w').
Proof. unfold ret. destruct (exec w o) as [[o' w']|]; [|done]. injection 1 as ->. by exists w'. Qed.
