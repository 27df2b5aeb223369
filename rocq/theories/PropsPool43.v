(** * Interest too small for the suppliers' rate is lost to them (C96) *)
From Verif Require Import Base Types Token Emitter Factory Backstop PoolReserve PoolUser PoolHealth
  PoolAuction PoolSubmit PoolEmis PoolAdmin World Facts XMove Spec PoolFrame PoolCfg PoolAccrue PoolTrace PoolInv AuctionFacts
  PoolSim PoolReq PoolHF PoolOps PoolLiq PoolReach PoolTx FrameFacts PropsPool1 PropsPool2 PropsPool3 PropsPool4 PropsPool5.

(** ** Specification: the interest that a transaction which brings a reserve from [d] to [d'] adds to
    the loans that were outstanding before it, and what is left of it for the suppliers after the
    backstop's share, at the take rate [take] (7 decimals) *)
Definition interest (d d' : ResData) : Z := cdiv (rd_d_supply d * rd_d_rate d') 1000000000 - cdiv (rd_d_supply d * rd_d_rate d) 1000000000.
Definition suppliers_part (take : Z) (d d' : ResData) : Z := interest d d' - interest d d' * take / 10000000.

(** ** C96

    The bToken rate has nine decimals and is rounded down at every update.  So an update whose
    interest for the suppliers is less than a thousand-millionth of their bTokens leaves them with
    nothing: their rate stays the same while every loan has grown, and no later update makes up for
    it, as it starts from the rates of this one. *)
Theorem C96_small_interest_is_lost : forall w o out w' a r d d',
  reachable w -> exec w o = Ok (out, w') -> reserve w a r = Some d -> reserve w' a r = Some d' ->
  1000000000 * suppliers_part (pc_bstop_rate (ps_config (pool w a))) d d' < rd_b_supply d ->
  rd_b_rate d' = rd_b_rate d.
Proof.
  intros w o out w' a r d d' Hr H Hd Hd' Hs. destruct (C14_interest_split _ _ _ _ _ _ _ _ Hr H Hd Hd') as (_ & _ & H1 & _).
  pose proof (reachable_step _ _ _ _ Hr H) as Hr1. destruct (C04_rates_never_decrease w [o] a r d Hr Hd) as (d1 & Hd1 & [_ Hb] & _).
  cbn [run] in Hd1. unfold step in Hd1. rewrite H in Hd1. assert (d1 = d') by congruence. subst d1.
  unfold suppliers_part, interest in Hs.
  assert (rd_b_supply d * (rd_b_rate d' - rd_b_rate d) < rd_b_supply d) as H2 by lia.
  assert (0 <= rd_b_supply d) by (apply (ro_bs _ (good_rd _ _ _ (init_of_data _ _ _ _ Hr Hd) Hd))).
  destruct (Z.eq_dec (rd_b_rate d') (rd_b_rate d)) as [|Hne]; [done|exfalso]. assert (1 <= rd_b_rate d' - rd_b_rate d) as H3 by lia. clear - H2 H3 H0. nia.
Qed.

(** Over a history in which every update is as small, however many they are and however much the
    loans grow, the suppliers get nothing. *)
Theorem C96_starved : forall l w a r d,
  reachable w -> reserve w a r = Some d ->
  (forall l1 o l2 d1 d2, l = l1 ++ o :: l2 -> reserve (run w l1) a r = Some d1 -> reserve (run w (l1 ++ [o])) a r = Some d2 ->
     1000000000 * suppliers_part (pc_bstop_rate (ps_config (pool (run w l1) a))) d1 d2 < rd_b_supply d1) ->
  exists d', reserve (run w l) a r = Some d' /\ rd_b_rate d' = rd_b_rate d.
Proof.
  induction l as [|o l IH] using rev_ind; intros w a r d Hr Hd Hs; [by exists d|].
  destruct (IH w a r d Hr Hd) as (d1 & Hd1 & E1).
  { intros l1 o1 l2 d1 d2 ->. apply (Hs l1 o1 (l2 ++ [o])). by rewrite <- app_assoc. }
  assert (reachable (run w l)) as Hr1 by (by apply reachable_run).
  destruct (C04_rates_never_decrease (run w l) [o] a r d1 Hr1 Hd1) as (d2 & Hd2 & _). change (run (run w l) [o]) with (step (run w l) o) in Hd2. rewrite <- run_snoc in Hd2.
  exists d2. split; [done|]. rewrite <- E1. pose proof (Hs l o [] d1 d2 eq_refl Hd1 Hd2) as Hsm.
  rewrite run_snoc in Hd2. unfold step in Hd2. destruct (exec (run w l) o) as [[out w']|] eqn:E; [|congruence].
  by eapply C96_small_interest_is_lost.
Qed.
