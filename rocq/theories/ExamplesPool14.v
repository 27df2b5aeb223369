(** * Concrete cases for C73 *)
From Verif Require Import Base Types Token Emitter Factory Backstop PoolReserve PoolUser PoolHealth
  PoolAuction PoolSubmit PoolEmis PoolAdmin World Facts XMove Spec PoolCfg PoolInv PoolEmisInv PoolReach PropsAdmin PropsBackstop BackEmis PropsEmitter PropsBackstop3 PropsBackstop4 PropsPool1 PropsPool10 PoolLive PropsToken
  PropsBackstop9 PropsPool31 PropsPool32 PropsPool33 Scenario ScenarioPool.

(** a decision procedure for [emis_fits] *)
Definition fitsb (now : Z) (p : PoolSt) (u : Addr) (id : Z) : bool :=
  match ps_ecfg p !! id, ps_edata p !! id with
  | Some cfg, Some d =>
      let dt := undistributed now cfg d in
      (dt <=? u64_max) && (dt * ec_eps cfg * tok_unit p id <=? i128_max) && (index_at now p id <=? i128_max) &&
      (tok_bal p u id * index_at now p id <=? i128_max) && (claimable now p u id <=? i128_max)
  | _, _ => true
  end.
Lemma fitsb_ok now p u id : fitsb now p u id = true -> emis_fits now p u id.
Proof. intros H cfg d E1 E2. unfold fitsb in H. rewrite E1, E2 in H. rewrite !andb_true_iff, !Z.leb_le in H. cbv zeta in *. tauto. Qed.

(** ** The hypotheses are met *)
(** the pool P1 of the scenario received its emissions a day ago; alice has earned some on both tokens *)
Definition connected (w : World) (a : Addr) : bool :=
  bs_init (x_bs (w_ext w)) && (em_blnd (x_em (w_ext w)) =? bs_blnd (x_bs (w_ext w))) && negb (bs_token (x_bs (w_ext w)) =? bs_blnd (x_bs (w_ext w)))
  && ps_init (pool w a) && (ps_blnd (pool w a) =? bs_blnd (x_bs (w_ext w))) && (ps_backstop (pool w a) =? bs_addr).
Example ex_C73_connected : connected (run sc0 ops_day) P1 = true /\ connected (run sc0 ops_day) P2 = true.
Proof. split; by vm_compute. Qed.
Example ex_C73_history : initial sc0 /\ all_ok sc0 ops_day = true /\ never_back sc0 ops_day /\ Forall (fun o => own_claim o = true) ops_day.
Proof.
  split; [apply sc0_initial|]. split; [by vm_compute|]. split; [by apply no_swap_never_back|].
  apply (bool_decide_unpack _). by vm_compute.
Qed.
Definition claim_ready (w : World) (u : Addr) (i : Z) : bool :=
  in_u32 i && bool_decide (is_Some (asset_of (pool w P1) i)) && fitsb (w_now w) (pool w P1) u i && (tok_bal (pool w P1) u i <=? i128_max).
Example ex_C73_ready : forallb (claim_ready (run sc0 ops_day) alice) [1; 2; 1] = true.
Proof. by vm_compute. Qed.
Example ex_C73_amounts :
  granted (run sc0 ops_day) BLND bs_addr P1 = 172799982720 /\ approved (run sc0 ops_day) BLND bs_addr P1 = 172799982720 /\
  sumh (pool_gulped P1) sc0 ops_day = 172799982720 /\ sumh (pool_lost P1) sc0 ops_day = 0 /\ recorded (run sc0 ops_day) P2 = 86399991360 /\
  claimable (w_now (run sc0 ops_day)) (pool (run sc0 ops_day) P1) alice 1 = 9874220000 /\
  claimable (w_now (run sc0 ops_day)) (pool (run sc0 ops_day) P1) alice 2 = 14811375000 /\
  balance (x_tok (w_ext (run sc0 ops_day))) BLND bs_addr = 864000000000 /\
  0 < unclaimed (run sc0 ops_day) P1.
Proof. by vm_compute. Qed.
(** so the theorem says that alice's claim of both succeeds *)
Example ex_C73_claim : exists w', exec (run sc0 ops_day) (OPool [alice] P1 (PClaim alice [1; 2; 1] bob)) = Ok (OutZ 24685595000, w').
Proof. apply ret_exec. by vm_compute. Qed.
(** after the claim: the ledger of the allowance *)
Example ex_C73_ledger : let l := ops_day ++ [claim_op] in
  granted (run sc0 l) BLND bs_addr P1 = 172799982720 - 24685595000 /\ sumh (pool_claimed P1) sc0 l = 24685595000 /\ sumh (pool_gulped P1) sc0 l = 172799982720.
Proof. by vm_compute. Qed.

(** ** The restriction is needed: an expired allowance *)
(** 121 days after the last [gulp_emissions] of the pool its allowance has expired: the claim of what alice has earned fails, although the
    backstop still holds it. *)
Definition ops_late : list Op := ops_day ++ [OTick (121 * 86400) (121 * 17280)].
Theorem C73_expired_allowance : exists w0 l, initial w0 /\ all_ok w0 l = true /\
  0 < claimable (w_now (run w0 l)) (pool (run w0 l) P1) alice 1 <= granted (run w0 l) BLND bs_addr P1 /\
  approved (run w0 l) BLND bs_addr P1 = 0 /\ sumh (pool_lost P1) w0 l = 0 /\
  ret (run w0 l) (OPool [alice] P1 (PClaim alice [1] alice)) = None.
Proof. exists sc0, ops_late. split; [apply sc0_initial|]. by vm_compute. Qed.
(** The next [gulp_emissions] of the pool replaces the expired allowance instead of adding to it: from then on the pool owes its users more
    than it may take, and a claim of all that alice has earned fails with an allowance that has not expired. *)
Definition ops_gulped : list Op := ops_late ++ [OExt [] EDistribute; OExt [] BGulp; OPool [] P1 PGulp; OTick (7 * 86400) (7 * 17280)].
Theorem C73_lost_allowance : exists w0 l, initial w0 /\ all_ok w0 l = true /\ connected (run w0 l) P1 = true /\
  0 < sumh (pool_lost P1) w0 l /\ approved (run w0 l) BLND bs_addr P1 = granted (run w0 l) BLND bs_addr P1 /\
  granted (run w0 l) BLND bs_addr P1 < sumz (claimable (w_now (run w0 l)) (pool (run w0 l) P1) alice) [1; 2] <= balance (x_tok (w_ext (run w0 l))) BLND bs_addr /\
  ret (run w0 l) (OPool [alice] P1 (PClaim alice [1; 2] alice)) = None.
Proof. exists sc0, ops_gulped. split; [apply sc0_initial|]. by vm_compute. Qed.
