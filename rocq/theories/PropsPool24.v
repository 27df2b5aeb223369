(** * When interest and bad debt auctions can be opened: C67 *)
From Verif Require Import Base Types Token Emitter Factory Backstop PoolReserve PoolUser PoolHealth
  PoolAuction PoolSubmit PoolEmis PoolAdmin World Facts XMove Spec PoolFrame PoolCfg PoolAccrue PoolTrace PoolInv AuctionFacts
  PoolSim PoolReq PoolHF PoolOps PoolLiq PoolReach PoolTx FrameFacts PropsAdmin BackMoves BackInv PropsBackstop PropsBackstop2 PropsBackstop5
  PropsPool1 PropsPool2 PropsPool3 PropsPool4 PropsPool5 PropsPool6 PropsPool7 PropsPool9 PoolLive PropsPool13 PropsPool17 PropsPool20 PropsPool22 PropsPool23.

(** ** Specification *)
(** the credit of reserve [r] to the backstop can be computed and valued in 128-bit integers; whether the
    oracle has a price of today is not part of this *)
Definition credit_computable (w : World) (a r : Addr) : Prop :=
  accruable w a r /\
  (forall v t, o_price (x_orc (w_ext w)) !! (pc_oracle (ps_config (pool w a)), r) = Some (v, t) -> 0 <= v /\ 0 <= t /\ t + 86400 <= u64_max) /\
  price_of (pool w a) (w_ext w) r * credit_now w a r <= i128_max.
(** the same for what [u] owes *)
Definition debt_computable (w : World) (a u r : Addr) : Prop :=
  accruable w a r /\
  (forall v t, o_price (x_orc (w_ext w)) !! (pc_oracle (ps_config (pool w a)), r) = Some (v, t) -> 0 <= v /\ 0 <= t /\ t + 86400 <= u64_max) /\
  owed (account w a u) r * d_rate_now w a r <= i128_max /\
  price_of (pool w a) (w_ext w) r * cdiv (owed (account w a u) r * d_rate_now w a r) 1000000000 <= i128_max.
(** the value of a backstop token can be computed in 128-bit integers *)
Definition token_computable (w : World) (a : Addr) (dec : Z) : Prop :=
  backstop_valued w a /\ dec <= 18 /\
  forall vb vu, bs_lpval (x_bs (w_ext w)) = Some (vb, vu) -> backstop_tokens w a * vu / 10000000 * 10 ^ dec * 50000000 <= i128_max.

(** ** Loops *)
Lemma load_price_at now x ch r v t :
  ch_price ch !! r = None \/ ch_price ch !! r = Some v ->
  o_price (x_orc x) !! (pc_oracle (ch_cfg ch), r) = Some (v, t) -> 0 <= t -> now <= t + 86400 <= u64_max ->
  exists ch', load_price now x ch r = Ok (v, ch') /\ ch_cfg ch' = ch_cfg ch /\ ch_res ch' = ch_res ch /\
    forall s, ch_price ch' !! s = ch_price ch !! s \/ (s = r /\ ch_price ch' !! s = Some v).
Proof.
  intros Hch Ho Ht0 Ht. unfold load_price. destruct Hch as [-> | ->]; [|exists ch; repeat (split; [done|]); by left].
  rewrite Ho. cbn [unwrap bind snd fst]. rewrite u64_fits by lia. cbn [bind]. rewrite (proj2 (Z.ltb_ge _ _)) by lia. cbn [negb bind].
  eexists. split; [done|]. split; [done|]. split; [done|]. intros s. simpl. destruct (decide (s = r)) as [->|Hne]; [right|left].
  - split; [done|]. by rewrite lookup_insert.
  - by rewrite lookup_insert_ne.
Qed.

Lemma interest_total w a sg assets : forall iv lot ch,
  reachable w -> good (pool w a) ->
  (forall r, r ∈ assets -> credit_computable w a r /\ (0 < credit_now w a r -> fresh_price (w_now w) (pool w a) (w_ext w) r)) ->
  ch_cfg ch = ps_config (pool w a) -> ch_res ch = ∅ ->
  (forall r v, ch_price ch !! r = Some v -> price_of (pool w a) (w_ext w) r = v) ->
  0 <= iv -> iv + sumz (credit_value w a) assets <= i128_max ->
  exists lot' ch', foldM (interest_one (ctx w sg) (pool w a) (w_ext w)) (iv, lot, ch) assets = Ok (iv + sumz (credit_value w a) assets, lot', ch') /\
    (forall r, is_Some (lot !! r) -> is_Some (lot' !! r)) /\ (forall r, r ∈ assets -> 0 < credit_now w a r -> is_Some (lot' !! r)).
Proof.
  induction assets as [|r assets IH]; intros iv lot ch Hr G Has Hcf Hre Hpr Hiv Hfit.
  { exists lot, ch. rewrite sumz_nil, Z.add_0_r. split; [done|]. split; [done|]. intros r Hx. by apply elem_of_nil in Hx. }
  rewrite sumz_cons in Hfit |- *. cbn [foldM].
  assert (forall s, s ∈ r :: assets -> 0 <= credit_value w a s) as Hnn.
  { intros s Hs. destruct (Has s Hs) as ((Hac & Hv & _) & Hf). unfold credit_value. destruct (Z.ltb_spec 0 (credit_now w a s)) as [Hp|]; [|done].
    destruct (Hf Hp) as (v & t & Ho & _). destruct (Hv _ _ Ho) as (Hv0 & _). unfold price_of. rewrite Ho. cbn [fst]. destruct Hac as (cfg & d & _ & Hc & _).
    unfold cfg_of. rewrite Hc. pose proof (cw_valid _ (gd_cfg _ G) _ _ Hc) as V. assert (0 < 10 ^ rc_decimals cfg) by (apply Z.pow_pos_nonneg; [lia|apply V]).
    apply Z.div_pos; [|done]. apply Z.mul_nonneg_nonneg; [exact Hv0|lia]. }
  assert (0 <= sumz (credit_value w a) assets) as Hs0. { apply sumz_nonneg. intros s Hs. apply Hnn. by right. }
  pose proof (Hnn r ltac:(left)) as Hr0.
  destruct (Has r ltac:(left)) as ((Hac & Hv & Hfi) & Hf).
  destruct (load_res_total w a r Hr Hac) as (res & El & Era & Ecr).
  pose proof (data_at_load _ _ _ _ El) as (HD & _ & Hsc & _).
  unfold interest_one at 1. unfold load_reserve. cbn [andb]. rewrite Hre, lookup_empty. change (c_now (ctx w sg)) with (w_now w). rewrite Hcf, El. cbn [bind].
  rewrite Ecr. destruct (Z.ltb_spec 0 (credit_now w a r)) as [Hp|Hp].
  - destruct (Hf Hp) as (v & t & Ho & Ht). destruct (Hv _ _ Ho) as (Hv0 & Ht0 & Ht1).
    assert (price_of (pool w a) (w_ext w) r = v) as Epr by (unfold price_of; by rewrite Ho).
    destruct (load_price_at (w_now w) (w_ext w) ch r v t) as (ch1 & Ep & C1 & C2 & C3); [|by rewrite Hcf|done|lia|].
    { destruct (ch_price ch !! r) as [v0|] eqn:E; [right|by left]. apply Hpr in E. congruence. }
    rewrite Ep. cbn [bind].
    assert (credit_value w a r = v * credit_now w a r / r_scalar res) as Ecv.
    { unfold credit_value. rewrite (proj2 (Z.ltb_lt _ _) Hp), Epr, Hsc. done. }
    destruct Hac as (cfg & d & d' & Hc & Hd & _). assert (0 < r_scalar res) as Hs. { rewrite Hsc. unfold cfg_of. rewrite Hc. pose proof (cw_valid _ (gd_cfg _ G) _ _ Hc) as V. apply Z.pow_pos_nonneg; [lia|apply V]. }
    rewrite fmul_floor_fits; [| |done]. 2: { rewrite Epr in Hfi. split; [|done]. apply Z.mul_nonneg_nonneg; lia. }
    cbn [bind]. rewrite <- Ecv. rewrite i128_ok_nonneg by lia. cbn [bind].
    destruct (IH (iv + credit_value w a r) (<[r := credit_now w a r]> lot) ch1) as (lot' & ch' & E & L1 & L2); try done; try lia.
    + intros s Hs0'. apply Has. by right.
    + by rewrite C1.
    + by rewrite C2.
    + intros s u Hs'. destruct (C3 s) as [C|[-> C]]; rewrite C in Hs'; [by apply Hpr|]. by injection Hs' as <-.
    + exists lot', ch'. rewrite Z.add_assoc. split; [exact E|]. split.
      * intros s Hs'. apply L1. destruct (decide (s = r)) as [->|]; [rewrite lookup_insert; eauto|by rewrite lookup_insert_ne].
      * intros s [->|Hs']%elem_of_cons Hps; [|by apply L2]. apply L1. rewrite lookup_insert. eauto.
  - cbn [bind].
    assert (credit_value w a r = 0) as Ecv. { unfold credit_value. by rewrite (proj2 (Z.ltb_ge _ _) Hp). }
    destruct (IH iv lot ch) as (lot' & ch' & E & L1 & L2); try done; try lia.
    + intros s Hs'. apply Has. by right.
    + exists lot', ch'. rewrite Ecv, Z.add_0_l. split; [exact E|]. split; [done|]. intros s [->|Hs']%elem_of_cons Hps; [lia|by apply L2].
Qed.

Lemma bad_debt_total' w a sg u es : forall dv bid ch,
  reachable w -> good (pool w a) ->
  (forall i v, (i, v) ∈ es -> exists r, 0 <= i /\ reserve_list w a !! Z.to_nat i = Some r /\ 0 < v /\ v = owed (account w a u) r /\
     debt_computable w a u r /\ fresh_price (w_now w) (pool w a) (w_ext w) r) ->
  ch_cfg ch = ps_config (pool w a) -> ch_res ch = ∅ ->
  (forall r v, ch_price ch !! r = Some v -> price_of (pool w a) (w_ext w) r = v) ->
  0 <= dv -> dv + sumz (entry_value (w_now w) (pool w a) (w_ext w)) es <= i128_max ->
  exists bid' ch', foldM (bad_debt_one (ctx w sg) (pool w a) (w_ext w)) (dv, bid, ch) es =
      Ok (dv + sumz (entry_value (w_now w) (pool w a) (w_ext w)) es, bid', ch') /\
    (forall r, is_Some (bid !! r) -> is_Some (bid' !! r)) /\ (es <> [] -> bid' <> ∅).
Proof.
  induction es as [|[i v] es IH]; intros dv bid ch Hr G Hes Hcf Hre Hpr Hdv Hfit.
  { exists bid, ch. rewrite sumz_nil, Z.add_0_r. split; [done|]. split; [done|]. done. }
  rewrite sumz_cons in Hfit |- *. cbn [foldM].
  assert (forall e, e ∈ (i, v) :: es -> 0 <= entry_value (w_now w) (pool w a) (w_ext w) e) as Hnn.
  { intros [j u0] Hs. destruct (Hes j u0 Hs) as (s & Hj & Hl & Hp & _ & (Hac & Hv & _) & (v0 & t0 & Ho & _)). destruct (Hv _ _ Ho) as (Hv0 & _).
    unfold entry_value. cbn [fst snd]. unfold reserve_list in Hl. rewrite Hl. unfold price_of. rewrite Ho. cbn [fst]. destruct Hac as (cfg & d & _ & Hc & _).
    unfold cfg_of. rewrite Hc. pose proof (cw_valid _ (gd_cfg _ G) _ _ Hc) as V. assert (0 < 10 ^ rc_decimals cfg) by (apply Z.pow_pos_nonneg; [lia|apply V]).
    destruct (data_rates (w_now w) (pool w a) s cfg G Hc) as [_ R2]. unfold SCALAR_9 in R2.
    apply Z.div_pos; [|done]. apply Z.mul_nonneg_nonneg; [exact Hv0|]. unfold d_assets. apply cdiv_nonneg; [done|]. apply Z.mul_nonneg_nonneg; lia. }
  assert (0 <= sumz (entry_value (w_now w) (pool w a) (w_ext w)) es) as Hs0. { apply sumz_nonneg. intros e He. apply Hnn. by right. }
  pose proof (Hnn (i, v) ltac:(left)) as He0.
  destruct (Hes i v ltac:(left)) as (r & Hi & Hl & Hp & Hov & (Hac & Hv & F1 & F2) & (pr & t & Ho & Ht)). destruct (Hv _ _ Ho) as (Hv0 & Ht0 & Ht1).
  destruct (load_res_total w a r Hr Hac) as (res & El & Era & _).
  pose proof (data_at_load _ _ _ _ El) as (HD & _ & Hsc & _).
  assert (price_of (pool w a) (w_ext w) r = pr) as Epr by (unfold price_of; by rewrite Ho).
  unfold bad_debt_one at 1. cbn [fst snd]. unfold reserve_list in Hl. rewrite (list_get_total _ _ _ Hl Hi). cbn [bind]. rewrite (proj2 (Z.ltb_lt 0 v) Hp).
  unfold load_reserve. cbn [andb]. rewrite Hre, lookup_empty. change (c_now (ctx w sg)) with (w_now w). rewrite Hcf, El. cbn [bind].
  destruct (load_price_at (w_now w) (w_ext w) ch r pr t) as (ch1 & Ep & C1 & C2 & C3); [|by rewrite Hcf|done|lia|].
  { destruct (ch_price ch !! r) as [v0|] eqn:E; [right|by left]. apply Hpr in E. congruence. }
  rewrite Ep. cbn [bind].
  assert (entry_value (w_now w) (pool w a) (w_ext w) (i, v) = pr * cdiv (v * d_rate_now w a r) 1000000000 / r_scalar res) as Eev.
  { unfold entry_value. cbn [fst snd]. rewrite Hl, Epr, Hsc. done. }
  destruct Hac as (cfg & d & d' & Hc & Hd & _). assert (0 < r_scalar res) as Hs. { rewrite Hsc. unfold cfg_of. rewrite Hc. pose proof (cw_valid _ (gd_cfg _ G) _ _ Hc) as V. apply Z.pow_pos_nonneg; [lia|apply V]. }
  destruct (data_rates (w_now w) (pool w a) r cfg G Hc) as [_ R2]. unfold SCALAR_9 in R2.
  assert (0 <= v * d_rate_now w a r) as Hm. { unfold d_rate_now. apply Z.mul_nonneg_nonneg; lia. }
  unfold asset_from_d. rewrite <- HD. rewrite <- Hov in F1, F2. unfold d_rate_now in F1, F2, Hm, Eev. rewrite Epr in F2. unfold SCALAR_9. rewrite fmul_ceil_fits' by lia. cbn [bind].
  rewrite fmul_floor_fits; [| |done]. 2: { split; [|done]. apply Z.mul_nonneg_nonneg; [done|]. by apply cdiv_nonneg. }
  cbn [bind]. rewrite <- Eev. rewrite i128_ok_nonneg by lia. cbn [bind].
  destruct (IH (dv + entry_value (w_now w) (pool w a) (w_ext w) (i, v)) (<[r := v]> bid) ch1) as (bid' & ch' & E & L1 & L2); try done; try lia.
  + intros j u0 Hj. apply Hes. by right.
  + by rewrite C1.
  + by rewrite C2.
  + intros s u0 Hs'. destruct (C3 s) as [C|[-> C]]; rewrite C in Hs'; [by apply Hpr|]. by injection Hs' as <-.
  + exists bid', ch'. rewrite Z.add_assoc. split; [exact E|]. split.
    * intros s Hs'. apply L1. destruct (decide (s = r)) as [->|]; [rewrite lookup_insert; eauto|by rewrite lookup_insert_ne].
    * intros _ Hempty. assert (is_Some (bid' !! r)) as [? Hx]. { apply L1. rewrite lookup_insert. eauto. } by rewrite Hempty, lookup_empty in Hx.
Qed.

(** ** The value of a backstop token *)
Lemma token_value_total w a dec : reachable w -> 0 <= dec -> token_computable w a dec ->
  exists d, pool_data (w_ext w) a = Ok d /\ pd_tokens d = backstop_tokens w a /\
    (0 < backstop_tokens w a -> backstop_token_value d (10 ^ dec) = Ok (token_value w a dec)) /\
    (backstop_tokens w a = 0 -> exists e, backstop_token_value d (10 ^ dec) = Err e) /\ 0 <= token_value w a dec.
Proof.
  intros Hr Hd0 (Hbv & Hd18 & Hfit). pose proof Hbv as (vb & vu & Hlp & V1 & V2 & F1 & F2 & F3).
  destruct (binv_pool _ _ a (reachable_binv w Hr)) as [B1 B2].
  destruct (data_total (w_ext w) a B1 B2 ltac:(exists vb, vu; unfold backstop_tokens, pool_bal in *; done)) as [d E]. exists d. split; [done|].
  apply pool_data_fields in E as (Etok & vb' & vu' & Hlp' & _ & Eus). assert (vb' = vb /\ vu' = vu) as [-> ->] by (split; congruence).
  specialize (Hfit _ _ Hlp). split; [exact Etok|]. unfold token_value. rewrite Hlp.
  assert (0 < 10 ^ dec) as Hs by (by apply Z.pow_pos_nonneg).
  change (pb_tokens (get_pb (w_ext w) a)) with (backstop_tokens w a) in *.
  set (T := backstop_tokens w a) in *. assert (0 <= T * vu / 10000000) as Hu0. { apply Z.div_pos; [|lia]. apply Z.mul_nonneg_nonneg; lia. }
  vals. rewrite <- Eus in *. set (U := pd_usdc d) in *.
  assert (0 <= U * 10 ^ dec) as H1 by (apply Z.mul_nonneg_nonneg; lia).
  assert (0 <= U * 10 ^ dec / 10000000 <= U * 10 ^ dec) as H2. { split; [apply Z.div_pos; lia|]. apply Z.div_le_upper_bound; lia. }
  unfold backstop_token_value. fold U.
  rewrite (fmul_floor_fits U (10 ^ dec) SCALAR_7) by (vals; lia). cbn [bind]. vals. rewrite i128_ok_nonneg by (unfold i128_max; lia). cbn [bind].
  split; [|split].
  - intros HT. rewrite Etok. rewrite fdiv_floor_fits by (unfold i128_max; lia). done.
  - intros HT. rewrite Etok, HT. unfold fdiv_floor, div_floor. rewrite i128_ok_nonneg by (unfold i128_max; lia). cbn [bind]. rewrite Z.eqb_refl. eauto.
  - destruct (Z.eq_dec T 0) as [->|]; [by rewrite Zdiv_0_r|]. apply Z.div_pos; lia.
Qed.

Lemma pool_at w a : ps_init (pool w a) = true -> w_pools w !! a = Some (pool w a).
Proof. unfold pool. destruct (w_pools w !! a); [done|discriminate]. Qed.
Lemma fresh_today w a r : price_of_today w a r -> fresh_price (w_now w) (pool w a) (w_ext w) r.
Proof. intros (v & t & H & Ht). exists v, t. split; [done|]. lia. Qed.

(** ** C67 *)
(** an interest auction of [assets] can be opened exactly if there is none yet, all assets are reserves, the
    oracle has a price of today for those that owe the backstop something, that is worth more than 200 in
    the oracle's unit, and a backstop token of the pool is worth something *)
Theorem C67_interest_auction : forall w sg a assets dec,
  reachable w -> forallb ok_signer sg = true -> ps_init (pool w a) = true -> ps_backstop (pool w a) = bs_addr -> bs_init (x_bs (w_ext w)) = true ->
  0 <= w_seq w < u32_max -> o_dec (x_orc (w_ext w)) !! pc_oracle (ps_config (pool w a)) = Some dec ->
  (* 128-bit integers suffice *)
  token_computable w a dec -> (forall r, r ∈ assets -> is_Some (reserve w a r) -> credit_computable w a r) ->
  sumz (credit_value w a) assets * 14000000 <= i128_max ->
  succeeds w (OPool sg a (PNewInterest assets)) <->
  auction w a 2 bs_addr = None /\
  (forall r, r ∈ assets -> is_Some (reserve w a r) /\ (0 < credit_now w a r -> price_of_today w a r)) /\
  200 * 10 ^ dec < sumz (credit_value w a) assets /\ 0 < token_value w a dec.
Proof.
  intros w sg a assets dec Hr Hok Hi Hbs Hbi Hseq Hdec Htok Has Hsum. pose proof (reachable_good w a Hr Hi) as G. pose proof (reachable_dec _ _ _ Hr Hdec) as Hd0.
  destruct (token_value_total w a dec Hr Hd0 Htok) as (d & Ed & Etk & Htv1 & Htv2 & Htv0).
  split.
  - intros (out & w' & H). pose proof H as H0. apply C25_creation in H0; [|done]. cbv zeta in H0.
    destruct H0 as (au & bid & dec' & _ & Hno & _ & _ & Hdec' & _ & H200 & Hfr & _ & Htp & _). rewrite Hbs in Hno. assert (dec' = dec) as -> by congruence.
    split; [done|]. split. { intros r Hin. destruct (Hfr r Hin) as [H1 H2]. split; [done|]. intros Hc. by apply today, H2. }
    split; [done|]. destruct (Z.eq_dec (token_value w a dec) 0) as [Hz|]; [|lia]. exfalso.
    apply exec_opool in H as (_ & _ & _ & px & H & _). simpl in H. rewrite Hi in H. simpl in H.
    apply bind_ok in H as ([au1 p1] & E & _). unfold create_interest in E. apply assert_ok in E as [_ E].
    apply bind_ok in E as ([dec2 ch] & Edd & E). apply bind_ok in E as (osc & Eo & E). apply bind_ok in E as (blk & _ & E).
    apply bind_ok in E as ([[iv lot] ch1] & Ef & E). apply bind_ok in E as (mn & Em & E).
    apply assert_ok in E as [_ E]. apply assert_ok in E as [_ E].
    apply bind_ok in E as (pd & Ep & E). apply bind_ok in E as (tv & Etv & E).
    apply bind_ok in E as (b0 & _ & E). apply bind_ok in E as (b1 & Eb1 & _).
    assert (osc = 10 ^ dec) as ->.
    { apply i128_ok in Eo as [-> _]. f_equal. unfold load_dec in Edd. simpl in Edd. rewrite Hdec in Edd. cbn [unwrap bind] in Edd. by injection Edd as <- _. }
    unfold call_pool_data, to_backstop in Ep. rewrite Hbs in Ep. change (bs_addr =? bs_addr) with true in Ep. cbn iota in Ep. rewrite Ed in Ep. injection Ep as <-.
    rewrite Htv1 in Etv by done. injection Etv as <-. rewrite Hz in Eb1. unfold fdiv_floor, div_floor in Eb1. apply bind_ok in Eb1 as (? & _ & Eb1). discriminate Eb1.
  - intros (Hno & Hfr & H200 & Htv).
    assert (0 < backstop_tokens w a) as Htp. { destruct (binv_pool _ _ a (reachable_binv w Hr)) as [_ B2]. change (pb_tokens (get_pb (w_ext w) a)) with (backstop_tokens w a) in B2.
      destruct (Z.eq_dec (backstop_tokens w a) 0) as [Hz|]; [|lia]. unfold token_value in Htv. rewrite Hz in Htv. destruct (bs_lpval _) as [[? ?]|]; [|lia]. rewrite Zdiv_0_r in Htv. lia. }
    specialize (Htv1 Htp). assert (0 < 10 ^ dec) as Hs by (by apply Z.pow_pos_nonneg). assert (10 ^ dec <= 10 ^ 18) as Hs18. { destruct Htok as (_ & ? & _). by apply Z.pow_le_mono_r. }
    unfold succeeds, exec. rewrite Hok, (pool_at w a Hi). cbn [ty_pop andb unwrap bind]. unfold p_exec. cbn [px_p px_x]. rewrite Hi. cbn [negb].
    unfold create_interest. rewrite Hbs. unfold has_auction. unfold auction in Hno. rewrite Hno. rewrite bool_decide_false by (by intros [? ?]). cbn [negb].
    unfold load_dec. cbn [ch_dec ch_cfg pool_load]. rewrite Hdec. cbn [unwrap bind]. unfold pow10. rewrite i128_ok_nonneg by (unfold i128_max; lia). cbn [bind].
    change (c_seq (ctx w sg)) with (w_seq w). unfold u32. rewrite (proj2 (in_u32_iff (w_seq w + 1))) by lia. cbn [bind].
    match goal with |- context [foldM _ (0, ∅, ?C) assets] => destruct (interest_total w a sg assets 0 ∅ C) as (lot & ch & E & _ & L2) end; try done; try lia.
    + intros r Hin. destruct (Hfr r Hin) as [H1 H2]. split; [by apply Has|]. intros Hc. by apply fresh_today, H2.
    + rewrite E. cbn [bind]. rewrite Z.add_0_l. rewrite i128_ok_nonneg by (unfold i128_max; lia). cbn [bind].
      rewrite (proj2 (Z.leb_gt _ _)) by lia. cbn [negb]. rewrite (proj2 (Z.eqb_neq _ 0)) by lia. rewrite orb_false_r.
      assert (lot <> ∅) as Hlot.
      { intros ->. destruct (decide (Exists (fun r => 0 < credit_now w a r) assets)) as [Hx|Hx].
        - apply Exists_exists in Hx as (r & Hin & Hc). destruct (L2 r Hin Hc) as [? Hl]. by rewrite lookup_empty in Hl.
        - assert (sumz (credit_value w a) assets = 0) as Hz; [|lia]. clear - Hx. induction assets as [|r l IH]; [done|]. rewrite sumz_cons, IH.
          + unfold credit_value. destruct (Z.ltb_spec 0 (credit_now w a r)); [|done]. exfalso. apply Hx. by left.
          + intros Hl. apply Hx. by right. }
      rewrite bool_decide_false by done. cbn [negb].
      unfold call_pool_data, to_backstop. rewrite Hbs. change (bs_addr =? bs_addr) with true. cbn iota. rewrite Ed. cbn [bind]. rewrite Htv1. cbn [bind].
      set (V := sumz (credit_value w a) assets) in *. rewrite fmul_floor_fits by (vals; lia). cbn [bind]. vals.
      assert (0 <= V * 14000000 / 10000000 * 10000000 <= V * 14000000) as Hv. { pose proof (Z.mul_div_le (V * 14000000) 10000000). split; [|lia]. apply Z.mul_nonneg_nonneg; [|lia]. apply Z.div_pos; lia. }
      rewrite fdiv_floor_fits by (unfold i128_max; lia). cbn [bind]. unfold call_backstop_token, to_backstop. rewrite Hbs. change (bs_addr =? bs_addr) with true. cbn iota. rewrite Hbi. cbn [bind]. eauto.
Qed.

Lemma debt_sum w a u : good (pool w a) ->
  sumz (entry_value (w_now w) (pool w a) (w_ext w)) (entries (po_liab (positions w a u))) = sumz (debt_value w a u) (reserve_list w a).
Proof.
  intros G. etransitivity; [apply (entries_listed (ps_list (pool w a)) (po_liab (get_pos (pool w a) u))
    (fun r n => price_of (pool w a) (w_ext w) r * d_assets (w_now w) (pool w a) r n / 10 ^ rc_decimals (cfg_of (pool w a) r)))|].
  4: { transitivity (sumz (fun ia => debt_value w a u ia.2) (indexed 0 (reserve_list w a))); [|apply sumz_indexed].
    apply sumz_ext. intros [i r] Hin. cbn [fst snd]. apply indexed_in in Hin as [Hi Hl]. rewrite Z.sub_0_r in Hl.
    unfold debt_value, d_assets, d_rate_now. pose proof (account_index w a KLiab u _ _ G Hl) as A. cbn [acc_k get_k] in A. rewrite A, Z2Nat.id by done. done. }
  - apply (cw_nodup _ (gd_cfg _ G)).
  - intros i v Hv. pose proof (gd_idx _ G u KLiab i v Hv) as Hib. split; [lia|]. apply lookup_lt_is_Some_2. lia.
  - intros r. unfold d_assets. rewrite Z.mul_0_l. unfold cdiv. simpl. rewrite Z.mul_0_r. apply Zdiv_0_l.
Qed.

(** a bad debt auction can be opened exactly if there is none yet, the oracle has a price of today for all
    assets the backstop owes, these debts are worth something in the oracle's unit, and a backstop token of
    the pool is worth something *)
Theorem C67_bad_debt_auction : forall w sg a dec,
  reachable w -> forallb ok_signer sg = true -> ps_init (pool w a) = true -> ps_backstop (pool w a) = bs_addr -> bs_init (x_bs (w_ext w)) = true ->
  0 <= w_seq w < u32_max -> o_dec (x_orc (w_ext w)) !! pc_oracle (ps_config (pool w a)) = Some dec ->
  (* 128-bit integers suffice *)
  token_computable w a dec -> (forall r, owed (account w a bs_addr) r <> 0 -> debt_computable w a bs_addr r) ->
  sumz (debt_value w a bs_addr) (reserve_list w a) * 14000000 <= i128_max ->
  succeeds w (OPool sg a PNewBadDebt) <->
  auction w a 1 bs_addr = None /\
  (forall r, owed (account w a bs_addr) r <> 0 -> price_of_today w a r) /\
  0 < sumz (debt_value w a bs_addr) (reserve_list w a) /\ 0 < token_value w a dec.
Proof.
  intros w sg a dec Hr Hok Hi Hbs Hbi Hseq Hdec Htok Has Hsum. pose proof (reachable_good w a Hr Hi) as G. pose proof (reachable_dec _ _ _ Hr Hdec) as Hd0.
  destruct (token_value_total w a dec Hr Hd0 Htok) as (d & Ed & Etk & Htv1 & Htv2 & Htv0).
  destruct (binv_pool _ _ a (reachable_binv w Hr)) as [_ B2]. change (pb_tokens (get_pb (w_ext w) a)) with (backstop_tokens w a) in B2.
  assert (forall i v, (i, v) ∈ entries (po_liab (positions w a bs_addr)) -> exists r, 0 <= i /\ reserve_list w a !! Z.to_nat i = Some r /\ 0 < v /\ v = owed (account w a bs_addr) r) as Hent.
  { intros i v Hv. apply elem_of_entries in Hv. pose proof (gd_idx _ G bs_addr KLiab i v Hv) as Hib. pose proof (gd_pos _ G bs_addr KLiab i v Hv) as Hv0.
    destruct (lookup_lt_is_Some_2 (ps_list (pool w a)) (Z.to_nat i) ltac:(lia)) as [r Hlr]. exists r. split; [lia|]. split; [done|]. split; [done|].
    destruct (owed_at w a bs_addr (Z.to_nat i) r G Hlr) as (-> & _). rewrite Z2Nat.id by lia. unfold get_liab, getz. by rewrite Hv. }
  split.
  - intros (out & w' & H). apply exec_opool in H as (_ & _ & _ & px & H & _). simpl in H. rewrite Hi in H. simpl in H.
    apply bind_ok in H as ([au1 p1] & E & _). unfold create_bad_debt in E. rewrite Hbs in E. apply assert_ok in E as [Hno E]. apply bind_ok in E as (blk & _ & E).
    apply bind_ok in E as ([dec2 ch] & Edd & E). apply bind_ok in E as (osc & Eo & E).
    apply bind_ok in E as ([[dv bid] ch1] & Ef & E). apply assert_ok in E as [Hne E]. apply bind_ok in E as (btok & _ & E).
    apply bind_ok in E as (pd & Ep & E). apply bind_ok in E as (tv & Etv & E). apply bind_ok in E as (l0 & _ & E). apply bind_ok in E as (l1 & El1 & _).
    unfold load_dec in Edd. simpl in Edd. rewrite Hdec in Edd. cbn [unwrap bind] in Edd. injection Edd as <- <-.
    apply i128_ok in Eo as [-> _].
    apply (bad_debt_values w a sg) in Ef as [-> Hfr]; [|done|done| |done|done].
    2: { constructor; simpl; [intros ? ?; by rewrite lookup_empty|]. by intros ? [= <-]. }
    split. { unfold has_auction in Hno. apply negb_true_iff, bool_decide_eq_false, eq_None_not_Some in Hno. exact Hno. }
    split; [exact Hfr|]. split.
    { apply negb_true_iff, orb_false_iff in Hne as [_ Hne%Z.eqb_neq].
      assert (0 <= sumz (debt_value w a bs_addr) (reserve_list w a)); [|lia]. apply sumz_nonneg. intros r Hin.
      unfold debt_value. apply elem_of_list_lookup in Hin as [i Hlr]. destruct (cw_idx _ (gd_cfg _ G) _ _ Hlr) as (cfg & Hc & _).
      unfold cfg_of. rewrite Hc. pose proof (cw_valid _ (gd_cfg _ G) _ _ Hc) as V. assert (0 < 10 ^ rc_decimals cfg) by (apply Z.pow_pos_nonneg; [lia|apply V]).
      destruct (data_rates (w_now w) (pool w a) r cfg G Hc) as [_ R2]. unfold SCALAR_9 in R2. destruct (account_nonneg w a bs_addr r Hr) as (_ & _ & Ho0).
      destruct (Z.eq_dec (owed (account w a bs_addr) r) 0) as [->|Hnz]. { rewrite Z.mul_0_l. change (cdiv 0 1000000000) with 0. rewrite Z.mul_0_r, Zdiv_0_l. done. }
      destruct (Has r Hnz) as (_ & Hv & _). destruct (Hfr r Hnz) as (v & t & Ho & _). destruct (Hv _ _ Ho) as (Hv0 & _). unfold price_of. rewrite Ho. cbn [fst].
      apply Z.div_pos; [|done]. apply Z.mul_nonneg_nonneg; [exact Hv0|]. apply cdiv_nonneg; [lia|]. unfold d_rate_now. apply Z.mul_nonneg_nonneg; lia. }
    destruct (Z.eq_dec (token_value w a dec) 0) as [Hz|]; [|lia]. exfalso.
    unfold call_pool_data, to_backstop in Ep. rewrite Hbs in Ep. change (bs_addr =? bs_addr) with true in Ep. cbn iota in Ep. rewrite Ed in Ep. injection Ep as <-.
    destruct (Z.eq_dec (backstop_tokens w a) 0) as [H0|H0]; [destruct (Htv2 H0) as [? Hx]; congruence|].
    rewrite Htv1 in Etv by lia. injection Etv as <-. rewrite Hz in El1. unfold fdiv_floor, div_floor in El1. apply bind_ok in El1 as (? & _ & El1). discriminate El1.
  - intros (Hno & Hfr & Hpos & Htv).
    assert (0 < backstop_tokens w a) as Htp. { destruct (Z.eq_dec (backstop_tokens w a) 0) as [Hz|]; [|lia]. unfold token_value in Htv. rewrite Hz in Htv. destruct (bs_lpval _) as [[? ?]|]; [|lia]. rewrite Zdiv_0_r in Htv. lia. }
    specialize (Htv1 Htp). assert (0 < 10 ^ dec) as Hs by (by apply Z.pow_pos_nonneg). assert (10 ^ dec <= 10 ^ 18) as Hs18. { destruct Htok as (_ & ? & _). by apply Z.pow_le_mono_r. }
    unfold succeeds, exec. rewrite Hok, (pool_at w a Hi). cbn [ty_pop andb unwrap bind]. unfold p_exec. cbn [px_p px_x]. rewrite Hi. cbn [negb].
    unfold create_bad_debt. rewrite Hbs. unfold has_auction. unfold auction in Hno. rewrite Hno. rewrite bool_decide_false by (by intros [? ?]). cbn [negb].
    change (c_seq (ctx w sg)) with (w_seq w). unfold u32. rewrite (proj2 (in_u32_iff (w_seq w + 1))) by lia. cbn [bind].
    unfold load_dec. cbn [ch_dec ch_cfg pool_load]. rewrite Hdec. cbn [unwrap bind]. unfold pow10. rewrite i128_ok_nonneg by (unfold i128_max; lia). cbn [bind].
    match goal with |- context [foldM _ (0, ∅, ?C) (entries ?M)] => change M with (po_liab (positions w a bs_addr)); destruct (bad_debt_total' w a sg bs_addr (entries (po_liab (positions w a bs_addr))) 0 ∅ C) as (bid & ch & E & _ & L2) end; try done; try lia.
    + intros i v Hv. destruct (Hent i v Hv) as (r & H1 & H2 & H3 & H4). exists r. do 4 (split; [done|]). assert (owed (account w a bs_addr) r <> 0) as Hnz by lia. split; [by apply Has|]. by apply fresh_today, Hfr.
    + rewrite debt_sum by done. lia.
    + rewrite E. cbn [bind]. rewrite debt_sum by done. rewrite Z.add_0_l. rewrite (proj2 (Z.eqb_neq _ 0)) by lia. rewrite orb_false_r.
      rewrite bool_decide_false; swap 1 2.
      { apply L2. intros Hn. rewrite <- debt_sum in Hpos by done. rewrite Hn, sumz_nil in Hpos. lia. }
      cbn [negb]. unfold call_backstop_token, call_pool_data, to_backstop. rewrite Hbs. change (bs_addr =? bs_addr) with true. cbn iota. rewrite Hbi, Ed. cbn [bind]. rewrite Htv1. cbn [bind].
      set (V := sumz (debt_value w a bs_addr) (reserve_list w a)) in *. rewrite fmul_floor_fits by (vals; lia). cbn [bind]. vals.
      assert (0 <= V * 14000000 / 10000000 * 10000000 <= V * 14000000) as Hv. { pose proof (Z.mul_div_le (V * 14000000) 10000000). split; [|lia]. apply Z.mul_nonneg_nonneg; [|lia]. apply Z.div_pos; lia. }
      rewrite fdiv_floor_fits by (unfold i128_max; lia). cbn [bind]. eauto.
Qed.
