(** * Concrete cases for C63 *)
From Verif Require Import Base Types Token Emitter Factory Backstop PoolReserve PoolUser PoolHealth
  PoolAuction PoolSubmit PoolEmis PoolAdmin World Facts XMove Spec PoolFrame BackMoves BackInv BackEmis
  PropsEmitter PropsAdmin PropsBackstop PropsBackstop2 PropsBackstop3 PropsBackstop4 PropsBackstop5 PropsAdmin2 PropsBackstop6 PropsBackstop7 PropsBackstop8
  Scenario ExamplesAdmin.

(** ** Deciding the hypotheses *)
Definition emis_fitb (w : World) (p u : Addr) : bool :=
  match bs_ecfg (x_bs (w_ext w)) !! p, bs_edata (x_bs (w_ext w)) !! p with
  | Some cfg, Some d =>
    ((Z.min (ec_exp cfg) (w_now w) - ed_last d) * ec_eps cfg * 10000000 <=? i128_max) &&
    (index_now w p cfg d <=? i128_max) && (user_gain w p u cfg d <=? i128_max) &&
    (buacc (w_ext w) p u + user_gain w p u cfg d / 10000000 <=? i128_max)
  | _, _ => true
  end.
Lemma emis_fitb_ok w p u : emis_fitb w p u = true -> emis_fit w p u.
Proof.
  unfold emis_fitb, emis_fit, emissions_fit. intros H cfg d Hc Hd. rewrite Hc, Hd in H.
  rewrite !andb_true_iff, !Z.leb_le in H. tauto.
Qed.
Definition stuckb (w : World) (p : Addr) : bool :=
  match bs_ecfg (x_bs (w_ext w)) !! p, bs_edata (x_bs (w_ext w)) !! p with
  | Some cfg, Some d => bool_decide (emission_due w p cfg d) && (unqueued w p =? 0)
  | _, _ => false
  end.
Lemma stuckb_ok w p : stuckb w p = true -> stuck w p.
Proof.
  unfold stuckb, stuck. destruct (bs_ecfg _ !! p) as [cfg|] eqn:Ec; [|done]. destruct (bs_edata _ !! p) as [d|] eqn:Ed; [|done].
  rewrite andb_true_iff, bool_decide_eq_true, Z.eqb_eq. intros [H1 H2]. by exists cfg, d.
Qed.
Definition gulp_fitsb (w : World) : bool :=
  (w_now w + 604800 <=? u64_max) && (undistributed w <=? 604800 * u64_max) && (zone_tokens w * 10000000 <=? i128_max) &&
  forallb (fun p =>
    (pb_q4w (pool_bal w p) * pb_tokens (pool_bal w p) <=? i128_max) && (get_pemis (w_ext w) p + undistributed w <=? i128_max) &&
    match bs_ecfg (x_bs (w_ext w)) !! p, bs_edata (x_bs (w_ext w)) !! p with
    | Some cfg, Some d =>
      ((Z.min (ec_exp cfg) (w_now w) - ed_last d) * ec_eps cfg * 10000000 <=? i128_max) && (index_now w p cfg d <=? i128_max) &&
      (left_over w cfg <=? u64_max) && (undistributed w + left_over w cfg <=? 604800 * u64_max)
    | _, _ => true
    end) (zone w).
Lemma gulp_fitsb_ok w : gulp_fitsb w = true -> gulp_fits w.
Proof.
  unfold gulp_fitsb, gulp_fits. rewrite !andb_true_iff, !Z.leb_le, forallb_forall. intros (((H1 & H2) & H3) & H4).
  split; [done|]. split; [done|]. split; [done|]. intros p Hp. apply elem_of_list_In in Hp. specialize (H4 p Hp).
  rewrite !andb_true_iff, !Z.leb_le in H4. destruct H4 as ((H4 & H5) & H6). split; [done|]. split; [done|].
  intros cfg d Hc Hd. rewrite Hc, Hd in H6. rewrite !andb_true_iff, !Z.leb_le in H6. tauto.
Qed.

(** ** A day of emissions, an hour and more later *)
Definition ops_later : list Op := ops_emit ++ [OTick 7200 1440; OExt [] EDistribute].
Definition q (u p n : Z) : Op := OExt [u] (BQueue u p n).
(** alice queues part of her shares *)
Definition ops_part : list Op := ops_emit ++ [q alice P1 200000000000; OTick 7200 1440; OExt [] EDistribute].

Example ex_C63_queue :
  emis_fitb (run sc0 ops_later) P1 alice = true /\ ub_shares (user_bal (run sc0 ops_later) P1 alice) = 500000000000 /\
  yes ops_later (q alice P1 500000000000) /\ no ops_later (q alice P1 500000000001) /\ no ops_later (OExt [bob] (BQueue alice P1 5)) /\
  no ops_later (q alice P1 (-1)) /\ yes ops_later (q alice P1 0) /\ no ops_stuck (q alice P1 0) /\
  yes (ops_later ++ replicate 20 (q alice P1 5)) (q alice P1 5) /\ no (ops_later ++ replicate 21 (q alice P1 5)) (q alice P1 5).
Proof. all_vm. Qed.
Definition dq (u p n : Z) : Op := OExt [u] (BDequeue u p n).
Example ex_C63_dequeue :
  emis_fitb (run sc0 ops_part) P1 alice = true /\ queued_of (run sc0 ops_part) P1 alice = 200000000000 /\
  yes ops_part (dq alice P1 200000000000) /\ no ops_part (dq alice P1 200000000001) /\ no ops_part (dq alice P1 (-1)) /\
  no ops_part (OExt [bob] (BDequeue alice P1 5)) /\
  queued_of (run sc0 ops_stuck) P1 alice = 500000000000 /\ no ops_stuck (dq alice P1 5).
Proof. all_vm. Qed.
Definition wd (u p n : Z) : Op := OExt [u] (BWithdraw u p n).
Definition ops_due : list Op := ops_part ++ [OTick 1814400 362880].
Definition ops_due_stuck : list Op := ops_stuck ++ [OTick 1814400 362880].
Example ex_C63_withdraw :
  bs_init (x_bs (w_ext (run sc0 ops_due))) = true /\ expired (w_now (run sc0 ops_due)) (ub_q4w (user_bal (run sc0 ops_due) P1 alice)) = 200000000000 /\
  ret (run sc0 ops_due) (wd alice P1 200000000000) = Some (OutZ (tokens_for (run sc0 ops_due) P1 200000000000)) /\
  no ops_due (wd alice P1 200000000001) /\ no ops_due (wd alice P1 0) /\ no ops_due (OExt [bob] (BWithdraw alice P1 5)) /\ no ops_part (wd alice P1 5) /\
  (* also when every other call for the pool fails *)
  yes ops_due_stuck (wd alice P1 500000000000).
Proof. all_vm. Qed.
Definition dep (u p n : Z) : Op := OExt [u] (BDeposit u p n).
Example ex_C63_deposit :
  emis_fitb (run sc0 ops_part) P1 bob = true /\ ret (run sc0 ops_part) (dep bob P1 1000000000) = Some (OutZ (shares_for (run sc0 ops_part) P1 1000000000)) /\
  0 < shares_for (run sc0 ops_part) P1 1000000000 /\
  no ops_part (dep bob P1 0) /\ no ops_part (dep bob P1 (-5)) /\ no ops_part (OExt [alice] (BDeposit bob P1 1000000000)) /\
  yes ops_part (dep bob P1 750000000000) /\ no ops_part (dep bob P1 750000000001) /\
  (* no pool of the factory *)
  no ops_part (dep bob (-8) 1000000000) /\ no ops_stuck (dep bob P1 1000000000).
Proof. all_vm. Qed.
Example ex_C63_distribute :
  gulp_fitsb (run sc0 ops_part) = true /\ zone (run sc0 ops_part) <> [] /\ 0 < zone_tokens (run sc0 ops_part) /\
  ret (run sc0 ops_part) (OExt [] BGulp) = Some (OutZ (undistributed (run sc0 ops_part))) /\ undistributed (run sc0 ops_part) = 7200 * 10000000 /\
  (* too early by a second, and just late enough *)
  no (ops_emit ++ [OTick 3600 720; OExt [] EDistribute]) (OExt [] BGulp) /\ yes (ops_emit ++ [OTick 3601 720; OExt [] EDistribute]) (OExt [] BGulp) /\
  (* no reward zone; one pool of it stuck *)
  no (ops_deploy ++ [OTick 7200 1440; OExt [] EDistribute]) (OExt [] BGulp) /\
  gulp_fitsb (run sc0 ops_stuck) = true /\ stuckb (run sc0 ops_stuck) P1 = true /\ no ops_stuck (OExt [] BGulp).
Proof. split; [by vm_compute|]. split; [by vm_compute|]. all_vm. Qed.

(** ** A pool all of whose shares are queued *)
(** two days later, and any number of further operations later, nothing but a withdrawal helps: *)
Definition ops_stuck2 : list Op := ops_stuck ++ [OTick 172800 34560; OExt [] EDistribute].
Example ex_C63_blocked :
  let w := run sc0 ops_stuck2 in
  bs_init (x_bs (w_ext w)) = true /\ stuck w P1 /\ P1 ∈ bs_rz (x_bs (w_ext w)) /\ P2 ∈ bs_rz (x_bs (w_ext w)) /\ bs_last (x_bs (w_ext w)) + 86400 < w_now w.
Proof.
  cbv zeta. split; [by vm_compute|]. split; [apply stuckb_ok; by vm_compute|]. split; [apply (bool_decide_eq_true_1 _); by vm_compute|].
  split; [apply (bool_decide_eq_true_1 _); by vm_compute|]. by vm_compute.
Qed.
(** carol brings a third pool with a larger deposit and has it added to the reward zone; still nothing can be distributed *)
Definition ops_third : list Op := ops_stuck2 ++ [ODeploy [admin] admin 3 ORC 1000000 4; OExt [carol] (BDeposit carol (dep_addr admin 3) 900000000000); OExt [] BUpdTkn;
  OExt [] (BAddReward (dep_addr admin 3) P1); OTick 7200 1440; OExt [] EDistribute].
Example ex_C63_third :
  all_ok sc0 ops_third = true /\ bs_rz (x_bs (w_ext (run sc0 ops_third))) = [dep_addr admin 3; P2; P1] /\ no ops_third (OExt [] BGulp) /\
  (* a withdrawal of all shares, three weeks later, unblocks the reward zone *)
  all_ok sc0 (ops_due_stuck ++ [wd alice P1 500000000000; OExt [] EDistribute; OExt [] BGulp]) = true.
Proof. all_vm. Qed.
