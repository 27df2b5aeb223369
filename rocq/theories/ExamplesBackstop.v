(** * Concrete cases that meet the hypotheses of the backstop and emitter theorems
    (all worlds are reachable: [sc_reachable]) *)
From Verif Require Import Base Types Token Emitter Factory Backstop PoolReserve PoolUser PoolHealth
  PoolAuction PoolSubmit PoolEmis PoolAdmin World Facts Spec BackMoves BackInv BackEmis
  PropsEmitter PropsAdmin PropsBackstop PropsBackstop2 PropsBackstop3 PropsBackstop4 PropsBackstop5 Scenario.

(** a second depositor of pool 1, partial queueing, three weeks *)
Definition ops_q1 := ops_emit ++ [OExt [bob] (BDeposit bob P1 123456789)].
Definition ops_q2 := ops_q1 ++ [OExt [alice] (BQueue alice P1 7000); OTick 86400 17280; OExt [alice] (BQueue alice P1 9000)].
Definition ops_q3 := ops_q2 ++ [OTick 1728000 345600].
Example ex_ok : all_ok sc0 ops_q3 = true. Proof. by vm_compute. Qed.

(** C36: two users share pool 1, one with queued shares *)
Example ex_C36 : let w := run sc0 ops_q3 in
  pool_bal w P1 = mkPoolBal 500123456789 500123456789 16000 /\
  user_bal w P1 alice = mkUserBal 499999984000 [mkQ4W 7000 (t0 + days 22); mkQ4W 9000 (t0 + days 23)] /\
  user_bal w P1 bob = mkUserBal 123456789 [].
Proof. by vm_compute. Qed.
(** C37 *)
Example ex_C37 : let w := run sc0 ops_q3 in
  bs_init (x_bs (w_ext w)) = true /\ bs_token (x_bs (w_ext w)) <> bs_blnd (x_bs (w_ext w)) /\
  recorded_tokens w = 750123456789 /\ lp_held w = 750123456789.
Proof. split; [by vm_compute|]. split; [by vm_compute|]. split; by vm_compute. Qed.
(** C38: after 21 days the first entry can be withdrawn, not a unit more *)
Example ex_C38 : let w := run sc0 ops_q3 in
  ret w (OExt [alice] (BWithdraw alice P1 7000)) = Some (OutZ 7000) /\ ret w (OExt [alice] (BWithdraw alice P1 7001)) = None /\
  ret w (OExt [alice] (BQueue alice P1 5)) = Some (OutQ4W (mkQ4W 5 (w_now w + days 21))).
Proof. split; [by vm_compute|]. split; by vm_compute. Qed.
Example ex_C38_sums : let l := ops_q3 ++ [OExt [alice] (BWithdraw alice P1 7000)] in
  sumh (withdrawn P1 alice) sc0 l = 7000 /\ sumh (queued_by P1 alice (w_now (run sc0 l) - days 21)) sc0 l = 7000.
Proof. split; by vm_compute. Qed.
(** C39: a share price other than one (a claim deposits LP tokens, a pool draws) *)
Definition ops_price := ops_q3 ++ [OExt [carol] (BDeposit carol P1 1000000)].
Example ex_C39_deposit : ret (run sc0 ops_q3) (OExt [carol] (BDeposit carol P1 1000000)) = Some (OutZ 1000000).
Proof. by vm_compute. Qed.
(** C40, C42: dequeue *)
Example ex_C40 : ret (run sc0 ops_q3) (OExt [alice] (BDequeue alice P1 8000)) = Some OutUnit /\
  user_bal (step (run sc0 ops_q3) (OExt [alice] (BDequeue alice P1 8000))) P1 alice = mkUserBal 499999992000 [mkQ4W 8000 (t0 + days 23)].
Proof. split; by vm_compute. Qed.
(** C42: somebody else's claim credits bob *)
Example ex_C42 : let w := run sc0 ops_q3 in let o := OExt [alice] (BClaim alice [P1] bob 5000000) in
  succeeds w o /\ user_bal (step w o) P1 bob = mkUserBal (123456789 + 5000000) [].
Proof.
  split; [|by vm_compute]. destruct (ret_exec (run sc0 ops_q3) (OExt [alice] (BClaim alice [P1] bob 5000000)) (OutZ 403100038136)) as [w' H]; [by vm_compute|]. by eexists _, _.
Qed.
(** C43: one day of emissions over two pools *)
Definition ops_before_gulp := ops_backstop ++ [OTick 86400 17280; OExt [] EDistribute].
Example ex_C43 : ret (run sc0 ops_before_gulp) (OExt [] BGulp) = Some (OutZ 864000000000) /\
  alloc_dep (x_log (w_ext sc_emit)) P1 = 403199959680 /\ alloc_pool (x_log (w_ext sc_emit)) P1 = 172799982720 /\
  alloc_dep (x_log (w_ext sc_emit)) P2 = 201599979840 /\ alloc_pool (x_log (w_ext sc_emit)) P2 = 86399991360.
Proof. split; [by vm_compute|]. split; [by vm_compute|]. split; [by vm_compute|]. split; by vm_compute. Qed.
(** C46: admission *)
Definition ops_before_reward := ops_deploy ++
  [OExt [alice] (BDeposit alice P1 500000000000); OExt [bob] (BDeposit bob P2 250000000000); OExt [] BUpdTkn].
Example ex_C46 : let w := run sc0 ops_before_reward in
  ret w (OExt [] (BAddReward P1 P1)) = Some OutUnit /\ bs_rz (x_bs (w_ext (step w (OExt [] (BAddReward P1 P1))))) = [P1].
Proof. split; by vm_compute. Qed.
(** C49, C50: distribution and a swap of the emitter's backstop *)
Example ex_C49 : last_of_current sc_emit = Some (t0 + 86400) /\ em_init (emitter sc_emit) = true.
Proof. split; by vm_compute. Qed.
Example ex_C50 : em_backstop (emitter (run sc0 (take 23 ops_back))) = bs_addr /\ em_backstop (emitter (run sc0 (take 18 ops_back))) = dave /\ all_ok sc0 ops_back = true.
Proof. split; [by vm_compute|]. split; by vm_compute. Qed.

(** C45, C53: alice's queue after three weeks; emissions are due and not all shares are queued *)
Definition ex_cfg := mkEmisConfig 1713830400 666666.
Definition ex_dat := mkEmisData 1151714 1713312000.
Example ex_C45_cfg : let w := run sc0 ops_q3 in
  bs_ecfg (x_bs (w_ext w)) !! P1 = Some ex_cfg /\ bs_edata (x_bs (w_ext w)) !! P1 = Some ex_dat /\ emission_due w P1 ex_cfg ex_dat.
Proof. split; [by vm_compute|]. split; [by vm_compute|]. split; [by vm_compute|]. split; [by vm_compute|]. split; [by vm_compute|]. by vm_compute. Qed.
Example ex_C45 : let w := run sc0 ops_q3 in
  queued_of w P1 alice = 16000 /\ unqueued w P1 = 500123440789 /\ updatable w P1 alice.
Proof.
  split; [by vm_compute|]. split; [by vm_compute|]. destruct ex_C45_cfg as (E1 & E2 & _).
  intros cfg d H1 H2. rewrite E1 in H1. rewrite E2 in H2. injection H1 as <-. injection H2 as <-.
  split; [intros _; by vm_compute|]. split; [by vm_compute|]. split; [by vm_compute|]. split; by vm_compute.
Qed.
Example ex_C53 : let w := run sc0 ops_q3 in
  bs_init (x_bs (w_ext w)) = true /\ bs_token (x_bs (w_ext w)) <> bs_blnd (x_bs (w_ext w)) /\
  expired (w_now w) (ub_q4w (user_bal w P1 alice)) = 7000 /\
  7000 * pb_tokens (pool_bal w P1) / pb_shares (pool_bal w P1) = 7000 /\ 7000 * pb_tokens (pool_bal w P1) <= i128_max /\
  balance (x_tok (w_ext w)) (bs_token (x_bs (w_ext w))) alice + 7000 <= i128_max.
Proof. split; [by vm_compute|]. split; [by vm_compute|]. split; [by vm_compute|]. split; [by vm_compute|]. split; by vm_compute. Qed.
