(** * Concrete cases for C75 *)
From Verif Require Import Base Types Token Emitter Factory Backstop PoolReserve PoolUser PoolHealth
  PoolAuction PoolSubmit PoolEmis PoolAdmin World Facts XMove Spec PoolCfg PoolInv PoolEmisInv PoolReach PropsAdmin PropsBackstop PropsPool10 PropsPool34 Scenario ScenarioPool.

(** ** The hypotheses are met *)
(** alice supplies 10 000 AAA of 600 000 in pool P1, whose suppliers of AAA get 114285 units of BLND a second *)
Definition ops_whale : list Op := ops_pool ++ [OExt [] (TMint AAA carol 10000000000000); submit_op alice [(0, AAA, 100000000000)]; submit_op carol [(0, AAA, 5900000000000)]].
Definition pokes (n : nat) : list Op := concat (repeat [OTick 5 1; OPool [dave] P1 (PClaim dave [1] dave)] n).
Definition shares : EmisConfig := mkEmisConfig 1713830400 114285.
Definition steadyb (w : World) : bool :=
  ps_init (pool w P1) && (tok_supply (pool w P1) 1 =? 6000000000000) && (tok_bal (pool w P1) alice 1 =? 100000000000) && (tok_unit (pool w P1) 1 =? 10000000) &&
  match ps_ecfg (pool w P1) !! 1 with Some c => (ec_exp c =? 1713830400) && (ec_eps c =? 114285) | None => false end.
Fixpoint alwaysb (w : World) (l : list Op) : bool := steadyb w && match l with [] => true | o :: l => alwaysb (step w o) l end.
Lemma alwaysb_ok l w : alwaysb w l = true -> always (steady P1 1 alice 6000000000000 100000000000 10000000 shares) w l.
Proof.
  revert w. induction l as [|o l IH]; intros w H; cbn [alwaysb] in H; apply andb_true_iff in H as [H1 H2].
  all: unfold steadyb in H1; rewrite !andb_true_iff, !Z.eqb_eq in H1; destruct H1 as ((((? & ?) & ?) & ?) & Hb);
    assert (ps_ecfg (pool w P1) !! 1 = Some shares) by (destruct (ps_ecfg (pool w P1) !! 1) as [[x1 x2]|]; [|done]; simpl in Hb; rewrite andb_true_iff, !Z.eqb_eq in Hb; destruct Hb as [-> ->]; done).
  all: cbn [always]; (split; [unfold steady; tauto|]).
  - done.
  - by apply IH.
Qed.
(** five minutes pass with one tick, or with a tick and a claim by a stranger every five seconds *)
Example ex_C75_history : all_ok sc0 (ops_whale ++ [OTick 300 60]) = true /\ alwaysb (run sc0 ops_whale) [OTick 300 60] = true /\
  all_ok sc0 (ops_whale ++ pokes 60) = true /\ alwaysb (run sc0 ops_whale) (pokes 60) = true.
Proof. by vm_compute. Qed.
Example ex_C75_no_claim : forall o, o ∈ pokes 60 -> ~ is_claim P1 alice 1 o.
Proof.
  assert (forallb (fun o => match o with OPool _ _ (PClaim f _ _) => negb (f =? alice) | _ => true end) (pokes 60) = true) as H by by vm_compute.
  intros o Ho (sg & ids & to & -> & _). rewrite forallb_forall in H. apply elem_of_list_In in Ho. specialize (H _ Ho). simpl in H. discriminate.
Qed.
(** with one tick alice earns a 60th of what is released, up to 10 001 units *)
Example ex_C75_share : let w := run sc0 ops_whale in let w' := run w [OTick 300 60] in
  ec_eps shares * stream_time shares (w_now w) (w_now w') = 34285500 /\
  claimable (w_now w') (pool w' P1) alice 1 - claimable (w_now w) (pool w P1) alice 1 = 570000 /\ 34285500 * 100000000000 / 6000000000000 = 571425.
Proof. by vm_compute. Qed.

(** ** The restriction is needed: the error per tick can be all there is *)
(** If anyone makes a call that touches the reserve in each ledger - a claim of nothing by a stranger is enough - nobody earns anything,
    although the stream releases as much as in the history without these calls, where alice earns her share. *)
Theorem C75_pokes_stop_the_stream : exists w0 l l1 l2, initial w0 /\ all_ok w0 (l ++ l1) = true /\ all_ok w0 (l ++ l2) = true /\
  w_now (run w0 (l ++ l1)) = w_now (run w0 (l ++ l2)) /\
  claimable (w_now (run w0 l)) (pool (run w0 l) P1) alice 1 = 0 /\
  claimable (w_now (run w0 (l ++ l1))) (pool (run w0 (l ++ l1)) P1) alice 1 = 570000 /\
  claimable (w_now (run w0 (l ++ l2))) (pool (run w0 (l ++ l2)) P1) alice 1 = 0 /\
  claimable (w_now (run w0 (l ++ l2))) (pool (run w0 (l ++ l2)) P1) carol 1 = 0.
Proof. exists sc0, ops_whale, [OTick 300 60], (pokes 60). split; [apply sc0_initial|]. by vm_compute. Qed.
(** in the first state after a poke, the hypotheses of the theorem on small ticks hold *)
Example ex_C75_small : let w := run sc0 (ops_whale ++ pokes 1) in
  (ed_last <$> ps_edata (pool w P1) !! 1) = Some (w_now w) /\ 5 * ec_eps shares * tok_unit (pool w P1) 1 < tok_supply (pool w P1) 1 /\
  (exists out, ret w (OTick 5 1) = Some out).
Proof. split; [by vm_compute|]. split; [by vm_compute|]. exists OutUnit. by vm_compute. Qed.
