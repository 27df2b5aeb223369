(** * Concrete cases for C76 and C77 *)
From Verif Require Import Base Types Token Emitter Factory Backstop PoolReserve PoolUser PoolHealth
  PoolAuction PoolSubmit PoolEmis PoolAdmin World Facts XMove Spec PoolCfg BackMoves BackInv BackEmis PropsAdmin PropsBackstop PropsBackstop10 PropsPool34 PropsBackstop11 Scenario.

(** ** C76: the hypotheses are met *)
(** alice deposited 50 000 shares for P1, whose depositors have a stream of 666 666 units a second; carol deposits as much and leaves again *)
Definition ops_bday : list Op := ops_emit ++ [OTick 86400 17280].
Definition carol_ops : list Op := [OExt [carol] (BDeposit carol P1 500000000000); OExt [carol] (BQueue carol P1 200000000000); OExt [] EDistribute; OExt [] BGulp;
  OExt [carol] (BClaim carol [P1; P2] carol 0)].
Example ex_C76_history : all_ok sc0 (ops_bday ++ carol_ops) = true. Proof. by vm_compute. Qed.
Example ex_C76_untouched :
  let w := run sc0 ops_bday in let w' := run w carol_ops in
  free_shares (w_ext w) P1 = 500000000000 /\ free_shares (w_ext w') P1 = 800000000000 /\
  bclaimable (w_now w) (w_ext w) P1 alice = 57599900000 /\ bclaimable (w_now w') (w_ext w') P1 alice = 57599900000 /\ bclaimable (w_now w') (w_ext w') P1 carol = 0.
Proof. by vm_compute. Qed.
(** alice claims, naming her pool twice: she is paid once; afterwards nothing is left *)
Example ex_C76_claim : let w := run sc0 ops_bday in
  ret w (OExt [alice] (BClaim alice [P1; P2; P1] alice 100000000)) = Some (OutZ 57599900000) /\
  (let w' := step w (OExt [alice] (BClaim alice [P1; P2; P1] alice 100000000)) in bclaimable (w_now w') (w_ext w') P1 alice = 0).
Proof. by vm_compute. Qed.
(** the restriction on claims that are credited to somebody else is needed: bob's claim is deposited for carol, who never was a depositor of P2
    and now can claim as if her new shares had earned from the start *)
Theorem C76_credited_claim : exists w0 l o, initial w0 /\ all_ok w0 (l ++ [o]) = true /\ ~ is_bclaim P2 carol o /\
  bclaimable (w_now (run w0 l)) (w_ext (run w0 l)) P2 carol = 0 /\ 0 < bclaimable (w_now (run w0 (l ++ [o]))) (w_ext (run w0 (l ++ [o]))) P2 carol /\
  w_now (run w0 (l ++ [o])) = w_now (run w0 l).
Proof.
  exists sc0, ops_bday, (OExt [bob] (BClaim bob [P2] carol 100000000)). split; [apply sc0_initial|]. split; [by vm_compute|].
  split; [intros (sg & ps & to & lp & Ho & _); discriminate Ho|]. by vm_compute.
Qed.

(** ** C77: the hypotheses are met *)
(** with 4 000 000 shares in the pool: five minutes pass with one tick, or with a tick and a claim of nothing by a stranger every five seconds *)
Definition ops_bwhale : list Op := ops_emit ++ [OExt [] (TMint LP carol 40000000000000); OExt [carol] (BDeposit carol P1 39500000000000)].
Definition bpokes (n : nat) : list Op := concat (repeat [OTick 5 1; OExt [dave] (BClaim dave [P1] dave 0)] n).
Definition bshares : EmisConfig := mkEmisConfig 1713830400 666666.
Definition bsteadyb (w : World) : bool :=
  (free_shares (w_ext w) P1 =? 40000000000000) && (ub_shares (get_ub (w_ext w) P1 alice) =? 500000000000) &&
  match bs_ecfg (x_bs (w_ext w)) !! P1 with Some c => (ec_exp c =? 1713830400) && (ec_eps c =? 666666) | None => false end.
Fixpoint balwaysb (w : World) (l : list Op) : bool := bsteadyb w && match l with [] => true | o :: l => balwaysb (step w o) l end.
Lemma balwaysb_ok l w : balwaysb w l = true -> always (bsteady P1 alice 40000000000000 500000000000 bshares) w l.
Proof.
  revert w. induction l as [|o l IH]; intros w H; cbn [balwaysb] in H; apply andb_true_iff in H as [H1 H2].
  all: unfold bsteadyb in H1; rewrite !andb_true_iff, !Z.eqb_eq in H1; destruct H1 as ((? & ?) & Hb);
    assert (bs_ecfg (x_bs (w_ext w)) !! P1 = Some bshares) by (destruct (bs_ecfg (x_bs (w_ext w)) !! P1) as [[x1 x2]|]; [|done]; simpl in Hb; rewrite andb_true_iff, !Z.eqb_eq in Hb; destruct Hb as [-> ->]; done).
  all: cbn [always]; (split; [unfold bsteady; tauto|]).
  - done.
  - by apply IH.
Qed.
Example ex_C77_history : all_ok sc0 (ops_bwhale ++ [OTick 300 60]) = true /\ balwaysb (run sc0 ops_bwhale) [OTick 300 60] = true /\
  all_ok sc0 (ops_bwhale ++ bpokes 60) = true /\ balwaysb (run sc0 ops_bwhale) (bpokes 60) = true.
Proof. by vm_compute. Qed.
Example ex_C77_no_claim : forall o, o ∈ bpokes 60 -> ~ is_bclaim P1 alice o /\ ~ credits alice o.
Proof.
  assert (forallb (fun o => match o with OExt _ (BClaim f _ t _) => negb (f =? alice) && negb (t =? alice) | _ => true end) (bpokes 60) = true) as H by by vm_compute.
  intros o Ho. rewrite forallb_forall in H. apply elem_of_list_In in Ho. specialize (H _ Ho).
  split; [intros (sg & ps & to & lp & -> & _)|intros (sg & f & ps & lp & -> & _)]; simpl in H; [discriminate|]. by rewrite andb_false_r in H.
Qed.
(** with one tick alice earns an 80th of what is released, up to 50 001 units *)
Example ex_C77_share : let w := run sc0 ops_bwhale in let w' := run w [OTick 300 60] in
  ec_eps bshares * stream_time bshares (w_now w) (w_now w') = 199999800 /\
  bclaimable (w_now w') (w_ext w') P1 alice - bclaimable (w_now w) (w_ext w) P1 alice = 2450000 /\ 199999800 * 500000000000 / 40000000000000 = 2499997.
Proof. by vm_compute. Qed.

(** ** C77, the restriction is needed *)
Theorem C77_pokes_stop_the_stream : exists w0 l l1 l2, initial w0 /\ all_ok w0 (l ++ l1) = true /\ all_ok w0 (l ++ l2) = true /\
  w_now (run w0 (l ++ l1)) = w_now (run w0 (l ++ l2)) /\
  bclaimable (w_now (run w0 l)) (w_ext (run w0 l)) P1 alice = 0 /\
  bclaimable (w_now (run w0 (l ++ l1))) (w_ext (run w0 (l ++ l1))) P1 alice = 2450000 /\
  bclaimable (w_now (run w0 (l ++ l2))) (w_ext (run w0 (l ++ l2))) P1 alice = 0 /\
  bclaimable (w_now (run w0 (l ++ l2))) (w_ext (run w0 (l ++ l2))) P1 carol = 0.
Proof. exists sc0, ops_bwhale, [OTick 300 60], (bpokes 60). split; [apply sc0_initial|]. by vm_compute. Qed.
Example ex_C77_small : let w := run sc0 (ops_bwhale ++ bpokes 1) in
  (ed_last <$> bs_edata (x_bs (w_ext w)) !! P1) = Some (w_now w) /\ 5 * ec_eps bshares * 10000000 < free_shares (w_ext w) P1 /\
  (exists out, ret w (OTick 5 1) = Some out).
Proof. split; [by vm_compute|]. split; [by vm_compute|]. exists OutUnit. by vm_compute. Qed.
