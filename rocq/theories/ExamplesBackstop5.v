(** * Concrete cases for C81 *)
From Verif Require Import Base Types Token Emitter Factory Backstop PoolReserve PoolUser PoolHealth
  PoolAuction PoolSubmit PoolEmis PoolAdmin World Facts XMove Spec PoolCfg BackMoves BackInv PropsAdmin PropsBackstop PropsBackstop14 PropsPool1 PropsPool4 Scenario ScenarioPool ExamplesPool.

Definition not_signed_by (u : Addr) (l : list Op) : bool := forallb (fun o => forallb (fun s => negb (s =? u)) (sig_of o)) l.
Definition no_bad_debt_fill (p : Addr) (l : list Op) : bool :=
  forallb (fun o => match o with OPool _ a (PSubmit _ _ _ qs) => negb (a =? p) || forallb (fun q => negb (rq_type q =? 7)) qs | _ => true end) l.
Lemma untouched_dec p u l : not_signed_by u l = true -> no_bad_debt_fill p l = true -> forall o, o ∈ l -> u ∉ sig_of o /\ ~ bad_debt_fill p o.
Proof.
  unfold not_signed_by, no_bad_debt_fill. rewrite !forallb_forall. intros H1 H2 o Ho. apply elem_of_list_In in Ho. specialize (H1 o Ho). specialize (H2 o Ho).
  rewrite forallb_forall in H1. split.
  - intros Hu. apply elem_of_list_In in Hu. specialize (H1 u Hu). rewrite Z.eqb_refl in H1. done.
  - intros (sg & from & spender & to & qs & q & -> & Hq & Ht). rewrite Z.eqb_refl in H2. simpl in H2. rewrite forallb_forall in H2. apply elem_of_list_In in Hq. specialize (H2 q Hq). by rewrite Ht in H2.
Qed.

(** the pool auctions its interest; carol deposits for the pool, queues and withdraws after 22 days, and fills the auction:
    alice's deposit is worth more, and alice signed nothing *)
Definition others : list Op :=
  [OExt [] (TMint LP carol 10000000000000); OExt [carol] (BDeposit carol P1 777777777777); OPool [] P1 (PNewInterest [BBB]); OTick 1000 201; submit_op carol [(8, bs_addr, 100)];
   OExt [carol] (BQueue carol P1 333333333333); OTick 1900800 200000; OExt [carol] (BWithdraw carol P1 333333333333)].
Example ex_C81_hypotheses : let w := run sc0 ops_rich in
  all_ok w others = true /\ ps_init (pool w P1) = true /\ not_signed_by alice others = true /\ no_bad_debt_fill P1 others = true /\ stake w P1 alice = 500000000000.
Proof. by vm_compute. Qed.
Example ex_C81_worth : let w := run sc0 ops_rich in
  deposit_worth w P1 alice = 500000000000 /\ deposit_worth (run w others) P1 alice = 500003323483 /\ stake (run w others) P1 alice = 500000000000.
Proof. by vm_compute. Qed.
(** the restriction is needed: a fill of a bad debt auction is paid for by the depositors *)
Theorem C81_bad_debt_takes_deposits : exists w o, reachable w /\ ret w o <> None /\ alice ∉ sig_of o /\ ps_init (pool w P1) = true /\ bad_debt_fill P1 o /\
  deposit_worth (step w o) P1 alice < deposit_worth w P1 alice /\ stake (step w o) P1 alice = stake w P1 alice.
Proof.
  exists (run sc0 ops_bdwait), (submit_op carol [(7, bs_addr, 30)]).
  split; [apply sc_reachable|]. split; [by vm_compute|]. split; [apply (bool_decide_eq_true_1 (alice ∉ sig_of (submit_op carol [(7, bs_addr, 30)]))); by vm_compute|].
  split; [by vm_compute|]. split; [|by vm_compute].
  unfold submit_op. eexists _, _, _, _, _, _. split; [reflexivity|]. split; [left|reflexivity].
Qed.
