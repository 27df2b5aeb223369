(** * What can happen to an account that its owner does not touch (C80) *)
From Verif Require Import Base Types Token Emitter Factory Backstop PoolReserve PoolUser PoolHealth
  PoolAuction PoolSubmit PoolEmis PoolAdmin World Facts XMove Spec PoolFrame PoolCfg PoolAccrue PoolTrace PoolInv AuctionFacts
  PoolSim PoolReq PoolHF PoolOps PoolLiq PoolReach PoolTx FrameFacts PropsAdmin PropsAdmin2 PropsAdmin3 PropsPool1 PropsPool2 PropsPool3 PropsPool4.

(** ** Specification *)
(** the account owes nothing *)
Definition no_debt (w : World) (a u : Addr) : Prop := po_liab (positions w a u) = ∅.
(** the account's collateral, weighted with the collateral factors, is worth more than its debt, weighted with the liability factors *)
Definition covered_debt (w : World) (a u : Addr) : Prop :=
  0 <= eff_liab (w_now w) (pool w a) (w_ext w) (positions w a u) < eff_coll (w_now w) (pool w a) (w_ext w) (positions w a u).
(** what the account's deposits in the [i]-th reserve are worth in its underlying asset, with bTokens worth [rate] (nine decimals) *)
Definition savings (pos : Positions) (i rate : Z) : Z := (amount_at (po_sup pos) i + amount_at (po_coll pos) i) * rate / 1000000000.

(** ** Lemmas *)
Lemma eff_coll_empty now p x pos : po_coll pos = ∅ -> eff_coll now p x pos = 0.
Proof.
  intros H. unfold eff_coll, over_reserves. induction (indexed 0 (ps_list p)) as [|[i r] l IH]; [done|]. rewrite sumz_cons, IH. cbn [fst snd].
  unfold get_coll, getz. rewrite H, lookup_empty. unfold coll_eff1, b_assets. cbn [default from_option]. repeat (rewrite Z.mul_0_l || rewrite Zdiv_0_l || rewrite Z.mul_0_r). lia.
Qed.
Lemma raw_liab_empty now p x pos : po_liab pos = ∅ -> raw_liab now p x pos = 0.
Proof.
  intros H. unfold raw_liab, over_reserves. induction (indexed 0 (ps_list p)) as [|[i r] l IH]; [done|]. rewrite sumz_cons, IH. cbn [fst snd].
  unfold get_liab, getz. rewrite H, lookup_empty. unfold liab_raw1, d_assets, cdiv. cbn [default from_option]. repeat (rewrite Z.mul_0_l || rewrite Zdiv_0_l || rewrite Z.mul_0_r || rewrite Z.opp_0). done.
Qed.
Lemma liquidation_needs_debt w sg a u pct out w' : reachable w -> exec w (OPool sg a (PNewLiq u pct)) = Ok (out, w') -> ~ no_debt w a u.
Proof.
  intros Hr H Hnd. destruct (tx_good _ _ _ _ _ _ Hr H) as [Hi G]; [done|].
  apply exec_opool in H as (_ & _ & _ & px & H & _ & _ & _). simpl in H. rewrite Hi in H. simpl in H.
  apply bind_ok in H as ([au p1] & E & _). unfold create_liquidation in E. apply assert_ok in E as [_ E]. apply bind_ok in E as ([au0 p2] & E & _).
  unfold create_user_liq in E. apply assert_ok in E as [_ E]. apply assert_ok in E as [_ E]. apply bind_ok in E as (blk & _ & E).
  change (get_pos (pool w a) u) with (positions w a u) in E. change (c_now (ctx w sg)) with (w_now w) in E.
  apply bind_ok in E as ([d ch1] & Epd & E). apply assert_ok in E as [_ E]. apply bind_ok in E as ([[ps ww] wp] & Ele & _).
  eapply (position_data_spec (w_now w) (pool w a) (w_ext w) (pool_load (pool w a)) (positions w a u) ∅) in Epd as Es; [|apply pool_load_cwf|done|apply G|apply pool_load_pwf|intros k i; by apply pos_ok_getz, G].
  destruct Es as (_ & _ & _ & _ & _ & _ & D4 & _). rewrite raw_liab_empty in D4 by done.
  unfold liq_estimate in Ele. apply bind_ok in Ele as (? & _ & Ele). apply bind_ok in Ele as (? & _ & Ele). apply bind_ok in Ele as (? & E1 & _).
  rewrite D4 in E1. destruct (fdiv_floor_zero (hd_liab_base d) (hd_scalar d)) as [e E2]. congruence.
Qed.
Lemma amounts_eq w w' a u : reachable w -> reachable w' -> (forall i, sup_of w' a u i = sup_of w a u i /\ coll_of w' a u i = coll_of w a u i /\ liab_of w' a u i = liab_of w a u i) ->
  positions w' a u = positions w a u.
Proof.
  intros Hr Hr' H.
  assert (forall m m' : gmap Z Z, (forall i v, m !! i = Some v -> 0 < v) -> (forall i v, m' !! i = Some v -> 0 < v) -> (forall i, amount_at m' i = amount_at m i) -> m' = m) as Hm.
  { clear. intros m m' P P' H. apply map_eq. intros i. specialize (H i). unfold amount_at in H. destruct (m !! i) as [v|] eqn:E, (m' !! i) as [v'|] eqn:E'; simpl in H; [congruence| | |done].
    - apply P in E. lia.
    - apply P' in E'. lia. }
  assert (forall k i v w, reachable w -> get_k k (positions w a u) !! i = Some v -> 0 < v) as P.
  { clear. intros k i v w Hr H. refine (proj1 (C02_positions_positive w a u i v Hr _)). destruct k; simpl in H; tauto. }
  assert (po_liab (positions w' a u) = po_liab (positions w a u)) as E1.
  { apply Hm; [intros i v; by apply (P KLiab)|intros i v; by apply (P KLiab)|]. intros i. by destruct (H i) as (_ & _ & ?). }
  assert (po_coll (positions w' a u) = po_coll (positions w a u)) as E2.
  { apply Hm; [intros i v; by apply (P KColl)|intros i v; by apply (P KColl)|]. intros i. by destruct (H i) as (_ & ? & _). }
  assert (po_sup (positions w' a u) = po_sup (positions w a u)) as E3.
  { apply Hm; [intros i v; by apply (P KSup)|intros i v; by apply (P KSup)|]. intros i. by destruct (H i) as (? & _ & _). }
  destruct (positions w' a u), (positions w a u); simpl in *; congruence.
Qed.

(** ** C80 *)
(** Without an open liquidation auction, nobody else's transaction changes an account of which the debt is covered, or which has no debt, and an
    auction can be opened on neither. *)
Theorem C80_step : forall w o out w' a u,
  reachable w -> exec w o = Ok (out, w') -> u ∉ signers o -> u <> ps_backstop (pool w a) ->
  auction w a 0 u = None -> no_debt w a u \/ covered_debt w a u ->
  positions w' a u = positions w a u /\ auction w' a 0 u = None.
Proof.
  intros w o out w' a u Hr H Hu Hb Hau Hs. pose proof (reachable_step _ _ _ _ Hr H) as Hr'.
  assert (forall sg from spender to qs q, o = OPool sg a (PSubmit from spender to qs) -> q ∈ qs -> rq_type q = 6 -> rq_addr q = u -> False) as Hnf.
  { intros sg from spender to qs q -> Hq Ht Ha. destruct (C21_no_self_fill _ _ _ _ _ _ _ _ _ 0 q Hr H Hq ltac:(lia) ltac:(lia)) as (_ & au & Hx & _). rewrite Ha, Hau in Hx. discriminate. }
  assert (forall sg, o = OPool sg a (PBadDebt u) -> False) as Hnb.
  { intros sg ->. pose proof H as H0. destruct (tx_good _ _ _ _ _ _ Hr H) as [Hi G]; [done|]. apply exec_opool in H as (_ & _ & _ & px & H & _ & _ & _). simpl in H. rewrite Hi in H. simpl in H.
    unfold on_pool in H. apply bind_ok in H as (p1 & E & _). apply bad_debt_sim in E as (_ & Hc & Hl & _); [|exact G].
    destruct Hs as [Hs|Hs]; [exact (Hl Hs)|]. unfold covered_debt in Hs. rewrite eff_coll_empty in Hs by exact Hc. lia. }
  split.
  - apply amounts_eq; [done|done|]. intros i. destruct (C12_isolation w o out w' a u i Hr H Hu Hb) as (H1 & H2 & H3 & H4 & H5). split; [done|].
    split.
    + destruct (Z.eq_dec (coll_of w' a u i) (coll_of w a u i)) as [?|Hn]; [done|]. exfalso. destruct (H4 Hn) as (sg & from & sp & to & qs & q & -> & Hq & Ht & Ha). by eapply Hnf.
    + destruct (Z.eq_dec (liab_of w' a u i) (liab_of w a u i)) as [?|Hn]; [done|]. exfalso. destruct (H5 Hn) as [(sg & from & sp & to & qs & q & -> & Hq & Ht & Ha)|(sg & ->)]; [by eapply Hnf|by eapply Hnb].
  - destruct (auct_step _ _ _ _ a 0 u Hr H ltac:(lia)) as [E|[(_ & E)|[(? & ? & ? & ? & ? & _ & E)|(_ & au0 & Ho & _ & E & _)]]]; [congruence|done| |].
    { by rewrite E, Hau, fold_none. }
    exfalso. destruct Ho as (sg & [(_ & pct & ->)|[(? & _)|(? & _)]]); [|lia|lia]. destruct Hs as [Hs|Hs]; [exact (liquidation_needs_debt _ _ _ _ _ _ _ Hr H Hs)|].
    pose proof (C16_liquidation_auction _ _ _ _ _ _ _ Hr H) as Hx. cbv zeta in Hx. destruct Hx as (_ & _ & _ & _ & _ & _ & _ & _ & He & _). unfold covered_debt in Hs. lia.
Qed.

(** Over any history in which the owner signs nothing, an account without an open liquidation auction, of which the debt (if any) is covered at every
    point, stays exactly as it is. *)
Theorem C80_accounts_stay : forall w l a u,
  reachable w -> ps_init (pool w a) = true -> u <> ps_backstop (pool w a) -> (forall o, o ∈ l -> u ∉ signers o) -> auction w a 0 u = None ->
  (forall l1 l2, l = l1 ++ l2 -> no_debt (run w l1) a u \/ covered_debt (run w l1) a u) ->
  positions (run w l) a u = positions w a u /\ auction (run w l) a 0 u = None.
Proof.
  intros w l a u Hr Hi Hb Hu Hau Hs. revert w Hr Hi Hb Hau Hs. induction l as [|o l IH]; intros w Hr Hi Hb Hau Hs; [done|].
  assert (positions (step w o) a u = positions w a u /\ auction (step w o) a 0 u = None /\ reachable (step w o)) as (E1 & E2 & E3).
  { unfold step. destruct (exec w o) as [[out w1]|e] eqn:E; [|split; [done|by split]]. destruct (C80_step w o out w1 a u Hr E (Hu o ltac:(left)) Hb Hau (Hs [] (o :: l) eq_refl)) as [? ?].
    split; [done|]. split; [done|]. by eapply reachable_step. }
  pose proof (C61_initialized_once w [o]) as (_ & _ & _ & Hone). destruct (Hone a Hi) as (Hi1 & Hb1 & _). change (run w [o]) with (step w o) in Hi1, Hb1.
  destruct (IH ltac:(intros o' Ho'; apply Hu; by right) (step w o) E3 Hi1 ltac:(by rewrite Hb1) E2) as [I1 I2].
  { intros l1 l2 ->. exact (Hs (o :: l1) l2 eq_refl). }
  change (run w (o :: l)) with (run (step w o) l). split; [congruence|done].
Qed.

(** Savings never shrink: if an account owes nothing and no liquidation auction is open on it, then whatever others do, and whatever happens to prices
    and borrowers, its deposits stay and the underlying assets they are worth never decrease. *)
Theorem C80_savings_never_shrink : forall w l a u,
  reachable w -> ps_init (pool w a) = true -> u <> ps_backstop (pool w a) -> (forall o, o ∈ l -> u ∉ signers o) ->
  auction w a 0 u = None -> no_debt w a u ->
  positions (run w l) a u = positions w a u /\ auction (run w l) a 0 u = None /\
  forall i r d, reserve_list w a !! i = Some r -> reserve w a r = Some d ->
    exists d', reserve_list (run w l) a !! i = Some r /\ reserve (run w l) a r = Some d' /\
      savings (positions w a u) (Z.of_nat i) (rd_b_rate d) <= savings (positions (run w l) a u) (Z.of_nat i) (rd_b_rate d').
Proof.
  intros w l a u Hr Hi Hb Hu Hau Hnd.
  assert (positions (run w l) a u = positions w a u /\ auction (run w l) a 0 u = None) as [E1 E2].
  { clear -Hr Hi Hb Hu Hau Hnd. revert w Hr Hi Hb Hau Hnd. induction l as [|o l IH]; intros w Hr Hi Hb Hau Hnd; [done|].
    assert (positions (step w o) a u = positions w a u /\ auction (step w o) a 0 u = None /\ reachable (step w o)) as (E1 & E2 & E3).
    { unfold step. destruct (exec w o) as [[out w1]|e] eqn:E; [|split; [done|by split]]. destruct (C80_step w o out w1 a u Hr E (Hu o ltac:(left)) Hb Hau (or_introl Hnd)) as [? ?].
      split; [done|]. split; [done|]. by eapply reachable_step. }
    pose proof (C61_initialized_once w [o]) as (_ & _ & _ & Hone). destruct (Hone a Hi) as (Hi1 & Hb1 & _). change (run w [o]) with (step w o) in Hi1, Hb1.
    destruct (IH ltac:(intros o' Ho'; apply Hu; by right) (step w o) E3 Hi1 ltac:(by rewrite Hb1) E2) as [I1 I2]; [unfold no_debt; by rewrite E1|].
    change (run w (o :: l)) with (run (step w o) l). split; [congruence|done]. }
  split; [done|]. split; [done|]. intros i r d Hl Hd.
  destruct (C04_rates_never_decrease w l a r d Hr Hd) as (d' & Hd' & [Hb1 Hb2] & _).
  destruct (proj1 (proj2 (proj2 (C29_reserve_list_bijection w a Hr)) i r) Hl) as (cfg & Hc & Hx).
  destruct (C28_index_and_decimals_fixed w l a r cfg Hc) as (cfg' & Hc' & Hx' & _).
  exists d'. split. { apply (proj2 (proj2 (C29_reserve_list_bijection (run w l) a (reachable_run w l Hr)))). exists cfg'. split; [done|congruence]. }
  split; [done|]. rewrite E1. unfold savings. apply Z.div_le_mono; [lia|]. apply Z.mul_le_mono_nonneg_l; [|lia].
  assert (forall k, 0 <= amount_at (get_k k (positions w a u)) (Z.of_nat i)) as P.
  { intros k. unfold amount_at. destruct (get_k k (positions w a u) !! Z.of_nat i) as [v|] eqn:E; [|simpl; lia]. simpl.
    assert (0 < v); [|lia]. refine (proj1 (C02_positions_positive w a u (Z.of_nat i) v Hr _)). destruct k; simpl in E; tauto. }
  pose proof (P KSup). pose proof (P KColl). simpl in *. lia.
Qed.

(** Finding: the condition that no auction be open matters also for accounts without debt.  Repaying all debt does not end a liquidation auction; only its
    owner's explicit request does.  400 ledgers after it was opened, anyone gets the full lot for nothing, whether or not the account still has debt. *)
Theorem C80_open_auction_takes_savings : forall w sg a filler spender to u out w' au,
  reachable w -> exec w (OPool sg a (PSubmit filler spender to [mkReq 6 u 100])) = Ok (out, w') ->
  auction w a 0 u = Some au -> au_block au + 400 <= w_seq w ->
  filler <> u /\ forall r, let lot := Z.max 0 (amount_at (au_lot au) r) in
    collateral (account w' a u) r = collateral (account w a u) r - lot /\ owed (account w' a u) r = owed (account w a u) r /\
    collateral (account w' a filler) r = collateral (account w a filler) r + lot /\ owed (account w' a filler) r = owed (account w a filler) r.
Proof.
  intros w sg a filler spender to u out w' au Hr H Hau Hage.
  assert (filler <> u) as Hne. { destruct (C21_no_self_fill _ _ _ _ _ _ _ _ _ 0 (mkReq 6 u 100) Hr H ltac:(left) ltac:(lia) ltac:(done)) as [Hne _]. exact Hne. }
  split; [done|]. intros r lot.
  destruct (C20_fill_moves_exactly _ _ _ _ _ _ _ _ _ _ Hr H) as (au' & Hau' & _ & Hm & _). assert (au' = au) as -> by congruence.
  change (100 mod 2 ^ 64) with 100 in Hm.
  assert (amount_at (au_lot (filled au 100 (w_seq w - au_block au))) r = lot) as El.
  { unfold lot, amount_at, filled. cbn [au_lot]. rewrite lookup_omap. destruct (au_lot au !! r) as [v|]; cbn; [|lia].
    assert (PropsPool4.handed v 100 (w_seq w - au_block au) = v) as ->.
    { unfold PropsPool4.handed, lot_part, lot_share. rewrite Z.div_mul by lia. rewrite Z.min_l by lia. by rewrite Z.div_mul. }
    unfold positive. destruct (Z.ltb_spec 0 v); simpl; lia. }
  assert (amount_at (au_bid (filled au 100 (w_seq w - au_block au))) r = 0) as Eb.
  { unfold amount_at, filled. cbn [au_bid]. rewrite lookup_omap. destruct (au_bid au !! r) as [v|]; cbn; [|lia].
    assert (charged v 100 (w_seq w - au_block au) = 0) as ->; [|done].
    unfold charged, bid_share. destruct (Z.leb_spec (w_seq w - au_block au) 200); [lia|]. rewrite Z.max_l by lia. rewrite Z.mul_0_r. done. }
  cbv zeta in Hm. destruct (Hm u r) as (A1 & A2 & _). destruct (Hm filler r) as (B1 & B2 & _). rewrite El in A1, B1. rewrite Eb in A2, B2.
  rewrite !Z.eqb_refl in *. rewrite (proj2 (Z.eqb_neq filler u) Hne) in B1, B2. rewrite (proj2 (Z.eqb_neq u filler) ltac:(done)) in A1, A2. lia.
Qed.
