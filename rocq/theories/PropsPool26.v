(** * Liquidation auctions can be opened exactly when documented: C67 *)
From Verif Require Import Base Types Token Emitter Factory Backstop PoolReserve PoolUser PoolHealth
  PoolAuction PoolSubmit PoolEmis PoolAdmin World Facts XMove Spec PoolFrame PoolCfg PoolAccrue PoolTrace PoolInv AuctionFacts
  PoolSim PoolReq PoolHF PoolOps PoolLiq PoolReach PoolTx PoolEmisInv FrameFacts PropsAdmin BackMoves BackInv PropsBackstop PropsBackstop2 PropsBackstop5
  PropsPool1 PropsPool2 PropsPool3 PropsPool4 PropsPool5 PropsPool6 PropsPool7 PropsPool9 PropsPool10 PoolLive PropsPool13 PropsPool15 PropsPool16 PropsPool17 PropsPool20 PropsPool22 PropsPool23 PropsPool24 PropsPool25.

(** ** A cache with prices in it *)
Definition priced (c0 ch : Cache) : Cache := ch <| ch_dec := ch_dec c0 |> <| ch_price := ch_price c0 |>.
Lemma load_priced now p c0 ch r b res ch' : load_reserve now p ch r b = Ok (res, ch') -> load_reserve now p (priced c0 ch) r b = Ok (res, priced c0 ch').
Proof.
  unfold load_reserve. intros H. change (ch_store (priced c0 ch)) with (ch_store ch).
  destruct (b && negb (existsb (Z.eqb r) (ch_store ch))); cbn -[priced] in H |- *; change (ch_res (priced c0 ch)) with (ch_res ch); change (ch_cfg (priced c0 ch)) with (ch_cfg ch).
  - destruct (ch_res ch !! r); [by injection H as <- <-|]. apply bind_ok in H as (r0 & E & H). rewrite E. by injection H as <- <-.
  - destruct (ch_res ch !! r); [by injection H as <- <-|]. apply bind_ok in H as (r0 & E & H). rewrite E. by injection H as <- <-.
Qed.
Lemma steps_priced f now u c0 l : forall p ch pos p' ch' pos',
  foldM (pos_step f now u) (p, ch, pos) l = Ok (p', ch', pos') -> foldM (pos_step f now u) (p, priced c0 ch, pos) l = Ok (p', priced c0 ch', pos').
Proof.
  induction l as [|e l IH]; intros p ch pos p' ch' pos' H; [by injection H as <- <- <-|].
  cbn [foldM] in H |- *. apply bind_ok in H as ([[p1 ch1] pos1] & E & H). unfold pos_step in E. apply bind_ok in E as ([r ch0] & El & E).
  apply bind_ok in E as ([[p2 pos2] r2] & Ef & E). injection E as <- <- <-. unfold pos_step at 1. rewrite (load_priced _ _ c0 _ _ _ _ _ El). cbn [bind]. rewrite Ef. cbn [bind].
  by apply IH in H.
Qed.
Lemma rm_priced now u c0 p ch pos lot bid p' ch' pos' :
  rm_positions now u (p, ch, pos) lot bid = Ok (p', ch', pos') -> rm_positions now u (p, priced c0 ch, pos) lot bid = Ok (p', priced c0 ch', pos').
Proof.
  unfold rm_positions. intros H. apply bind_ok in H as ([[p1 ch1] pos1] & E1 & E2). rewrite (steps_priced _ _ _ c0 _ _ _ _ _ _ _ E1). cbn [bind].
  by apply steps_priced.
Qed.

(** valuation from [ch2], which may have more prices and other supplies than [ch] *)
Record sees (now : Z) (x : Ext) (p p2 : PoolSt) (ch ch2 : Cache) : Prop := {
  se_cfg : ch_cfg ch2 = ch_cfg ch; se_pwf : pwf now x ch2;
  se_dec : forall d, ch_dec ch = Some d -> ch_dec ch2 = Some d;
  se_price : forall r v, ch_price ch !! r = Some v -> ch_price ch2 !! r = Some v;
  se_res : forall a r, load_reserve now p ch a false = Ok (r, ch) -> exists r2, load_reserve now p2 ch2 a false = Ok (r2, ch2) /\ like r r2
}.
Lemma load_cong now p ch ch' a r : ch_res ch' = ch_res ch -> ch_cfg ch' = ch_cfg ch -> load_reserve now p ch a false = Ok (r, ch) -> load_reserve now p ch' a false = Ok (r, ch').
Proof.
  intros E1 E2. unfold load_reserve. cbn [andb]. rewrite E1, E2. destruct (ch_res ch !! a); [by intros [= ->]|]. intros H. apply bind_ok in H as (r0 & -> & H). by injection H as ->.
Qed.
Lemma sees_frame now x p p2 ch ch2 ch' ch2' : sees now x p p2 ch ch2 -> ch_res ch' = ch_res ch -> ch_cfg ch' = ch_cfg ch -> ch_res ch2' = ch_res ch2 -> ch_cfg ch2' = ch_cfg ch2 ->
  pwf now x ch2' -> (forall d, ch_dec ch' = Some d -> ch_dec ch2' = Some d) -> (forall r v, ch_price ch' !! r = Some v -> ch_price ch2' !! r = Some v) -> sees now x p p2 ch' ch2'.
Proof.
  intros [A1 A2 A3 A4 A5] R1 C1 R2 C2 P D Q. constructor; [congruence|done|done|done|]. intros a r H.
  destruct (A5 a r) as (r2 & H2 & L); [by eapply load_cong; [| |exact H]|]. exists r2. split; [|done]. by eapply load_cong; [| |exact H2].
Qed.
Lemma price_sees now x p p2 ch ch2 r v ch' : sees now x p p2 ch ch2 -> load_price now x ch r = Ok (v, ch') ->
  exists ch2', load_price now x ch2 r = Ok (v, ch2') /\ sees now x p p2 ch' ch2' /\ ch_res ch' = ch_res ch /\ ch_res ch2' = ch_res ch2.
Proof.
  intros A H. pose proof A as [A1 A2 A3 A4 A5]. unfold load_price in H |- *. destruct (ch_price ch !! r) as [v0|] eqn:E.
  - injection H as <- <-. rewrite (A4 _ _ E). by exists ch2.
  - apply bind_ok in H as (pd & Hpd & H). apply bind_ok in H as (t & Ht & H). apply assert_ok in H as [Hb [= <- <-]].
    destruct (o_price (x_orc x) !! (pc_oracle (ch_cfg ch), r)) as [[v0 t0]|] eqn:Eo; [|discriminate]. injection Hpd as <-. cbn [fst snd] in *.
    pose proof Ht as Ht'. apply u64_ok in Ht' as [-> _].
    destruct (ch_price ch2 !! r) as [v2|] eqn:E2.
    + destruct (pf_price _ _ _ A2 _ _ E2) as (t2 & Ho2 & _). rewrite A1, Eo in Ho2. injection Ho2 as -> ->. exists ch2. split; [done|]. split; [|done].
      eapply sees_frame; try done. simpl. intros s u Hs. destruct (decide (s = r)) as [->|Hne]; [rewrite lookup_insert in Hs; congruence|]. rewrite lookup_insert_ne in Hs by done. by apply A4.
    + rewrite A1, Eo. cbn [unwrap bind fst snd]. rewrite Ht. cbn [bind]. rewrite Hb. eexists. split; [done|]. split; [|done].
      eapply sees_frame; try done.
      * destruct A2 as [A2a A2b]. constructor; simpl; [|done]. intros s u Hs. destruct (decide (s = r)) as [->|Hne].
        -- rewrite lookup_insert in Hs. injection Hs as <-. exists t0. rewrite A1. split; [done|]. apply negb_true_iff, Z.ltb_ge in Hb. lia.
        -- rewrite lookup_insert_ne in Hs by done. by apply A2a.
      * simpl. intros s u Hs. destruct (decide (s = r)) as [->|Hne]; [rewrite lookup_insert in Hs |- *; done|]. rewrite lookup_insert_ne in Hs |- * by done. by apply A4.
Qed.
Lemma health_one_sees now p p2 x pos acc ch ch2 ia acc' ch' :
  sees now x p p2 ch ch2 -> health_one now p x pos (acc, ch) ia = Ok (acc', ch') ->
  exists ch2', health_one now p2 x pos (acc, ch2) ia = Ok (acc', ch2') /\ sees now x p p2 ch' ch2'.
Proof.
  intros A H. destruct acc as [[[cb cr] lb] lr]. unfold health_one in H |- *. destruct ((_ =? 0) && (_ =? 0)); [injection H as <- <-; eauto|].
  apply bind_ok in H as ([r ch1] & Hl & H). pose proof (load_noop _ _ _ _ _ _ Hl) as ->.
  destruct (se_res _ _ _ _ _ _ A _ _ Hl) as (r2 & Hl2 & K). rewrite Hl2. cbn [bind]. destruct K as (K1 & K2 & K3 & K4 & K5 & K6).
  apply bind_ok in H as ([pr ch1] & Hp & H). rewrite K1. destruct (price_sees _ _ _ _ _ _ _ _ _ A Hp) as (ch3 & Hp2 & A3 & R1 & R3).
  rewrite Hp2. cbn [bind].
  apply bind_ok in H as ([cb' cr'] & H1 & H). apply bind_ok in H as ([lb' lr'] & H2 & [= <- <-]).
  unfold eff_asset_from_b, eff_asset_from_d, asset_from_b, asset_from_d in *. rewrite K2, K3, K4, K5, K6.
  rewrite H1. cbn [bind]. rewrite H2. cbn [bind]. eexists. split; [reflexivity|].
  destruct A3 as [B1 B2 B3 B4 B5]. constructor; simpl; [done|destruct B2; by constructor|done|done|].
  intros q r' Hq. destruct (decide (q = r_asset r)) as [->|Hne].
  - unfold load_reserve in Hq |- *. cbn [andb] in Hq |- *. simpl in Hq |- *. rewrite K1. rewrite lookup_insert in Hq |- *. injection Hq as <-. eexists. split; [reflexivity|]. done.
  - destruct (B5 q r') as (r4 & E4 & L4).
    { unfold load_reserve in Hq |- *. cbn [andb] in Hq |- *. simpl in Hq. rewrite lookup_insert_ne in Hq by done. destruct (ch_res ch1 !! q); [by injection Hq as ->|].
      apply bind_ok in Hq as (r3 & -> & Hq). by injection Hq as ->. }
    exists r4. split; [|done]. unfold load_reserve in E4 |- *. cbn [andb] in E4 |- *. simpl. rewrite K1, lookup_insert_ne by done. destruct (ch_res ch3 !! q); [by injection E4 as ->|].
    apply bind_ok in E4 as (r5 & E5 & E4). injection E4 as ->. rewrite E5. done.
Qed.
Lemma position_sees now p p2 x pos ch ch2 d ch' :
  sees now x p p2 ch ch2 -> ps_list p2 = ps_list p -> position_data now p x ch pos = Ok (d, ch') ->
  exists ch2', position_data now p2 x ch2 pos = Ok (d, ch2').
Proof.
  intros A Hl H. unfold position_data in H |- *. apply bind_ok in H as ([dec ch1] & E & H). apply bind_ok in H as (sc & Es & H).
  apply bind_ok in H as ([[[[cb cr] lb] lr] ch3] & Ef & [= <- <-]).
  assert (exists ch4, load_dec x ch2 = Ok (dec, ch4) /\ sees now x p p2 ch1 ch4) as (ch4 & -> & A4).
  { unfold load_dec in E |- *. pose proof A as [A1 A2 A3 A4 A5]. destruct (ch_dec ch) as [d0|] eqn:Ed.
    - injection E as <- <-. rewrite (A3 _ eq_refl). eauto.
    - apply bind_ok in E as (d0 & Eo & [= <- <-]). destruct (o_dec _ !! _) as [d1|] eqn:Eo1 in Eo; [|discriminate]. injection Eo as ->.
      destruct (ch_dec ch2) as [d2|] eqn:Ed2.
      + pose proof (pf_dec _ _ _ A2 _ Ed2) as Ho2. rewrite A1, Eo1 in Ho2. injection Ho2 as ->. eexists. split; [done|]. eapply sees_frame; try done. simpl. by intros ? [= <-].
      + rewrite A1, Eo1. cbn [unwrap bind]. eexists. split; [done|]. eapply sees_frame; try done. destruct A2 as [A2a A2b]. constructor; simpl; [done|]. intros ? [= <-]. by rewrite A1. }
  cbn [bind]. rewrite Es. cbn [bind]. rewrite Hl.
  assert (forall l acc ch ch2 acc' ch', sees now x p p2 ch ch2 -> foldM (health_one now p x pos) (acc, ch) l = Ok (acc', ch') ->
    exists ch2', foldM (health_one now p2 x pos) (acc, ch2) l = Ok (acc', ch2')) as Hfold.
  { clear. induction l as [|ia l IH]; intros acc ch ch2 acc' ch' A H; [injection H as <- <-; eauto|].
    cbn [foldM] in H |- *. apply bind_ok in H as ([acc1 ch1] & H1 & H). destruct (health_one_sees _ _ _ _ _ _ _ _ _ _ _ A H1) as (ch3 & -> & A3). cbn [bind]. by eapply IH. }
  destruct (Hfold _ _ _ _ _ _ A4 Ef) as (ch5 & ->). cbn [bind]. eauto.
Qed.

(** what a valuation leaves in the cache *)
Lemma health_cache now p x pos l : forall acc ch acc' ch',
  foldM (health_one now p x pos) (acc, ch) l = Ok (acc', ch') ->
  (forall r res, ch_res ch !! r = Some res -> load_res now (ch_cfg ch) p r = Ok res) ->
  ch_cfg ch' = ch_cfg ch /\ ch_store ch' = ch_store ch /\ (forall r res, ch_res ch' !! r = Some res -> load_res now (ch_cfg ch') p r = Ok res).
Proof.
  induction l as [|ia l IH]; intros acc ch acc' ch' H Hc; [by injection H as <- <-|].
  cbn [foldM] in H. apply bind_ok in H as ([acc1 ch1] & H1 & H).
  assert (ch_cfg ch1 = ch_cfg ch /\ ch_store ch1 = ch_store ch /\ (forall r res, ch_res ch1 !! r = Some res -> load_res now (ch_cfg ch1) p r = Ok res)) as (C1 & S1 & R1).
  { destruct acc as [[[cb cr] lb] lr]. unfold health_one in H1. destruct ((_ =? 0) && (_ =? 0)); [by injection H1 as <- <-|].
    apply bind_ok in H1 as ([r ch2] & Hl & H1). pose proof (load_noop _ _ _ _ _ _ Hl) as ->.
    apply bind_ok in H1 as ([pr ch3] & Hp & H1). apply bind_ok in H1 as ([cb' cr'] & _ & H1). apply bind_ok in H1 as ([lb' lr'] & _ & [= <- <-]).
    assert (ch_cfg ch3 = ch_cfg ch /\ ch_store ch3 = ch_store ch /\ ch_res ch3 = ch_res ch) as (Q1 & Q2 & Q3).
    { unfold load_price in Hp. destruct (ch_price ch !! _); [by injection Hp as <- <-|]. apply bind_ok in Hp as (pd & _ & Hp). apply bind_ok in Hp as (t & _ & Hp). apply assert_ok in Hp as [_ [= <- <-]]. done. }
    assert (load_res now (ch_cfg ch) p (snd ia) = Ok r) as Hr.
    { unfold load_reserve in Hl. cbn [andb] in Hl. destruct (ch_res ch !! _) as [r0|] eqn:E in Hl; [injection Hl as ->; by apply Hc|]. apply bind_ok in Hl as (r0 & E1 & Hl). injection Hl as ->. done. }
    simpl. rewrite Q1, Q2, Q3. split; [done|]. split; [done|]. intros s res Hs.
    assert (r_asset r = snd ia) as Hra by (by apply load_res_fields in Hr as (? & ? & _ & _ & ? & _)).
    destruct (decide (s = snd ia)) as [->|Hne]; [rewrite Hra, lookup_insert in Hs; injection Hs as <-; done|]. rewrite Hra, lookup_insert_ne in Hs by done. by apply Hc. }
  destruct (IH _ _ _ _ H R1) as (C2 & S2 & R2). split; [congruence|]. split; [congruence|done].
Qed.
Lemma position_cache now p x pos d ch' : position_data now p x (pool_load p) pos = Ok (d, ch') ->
  ch_cfg ch' = ps_config p /\ ch_store ch' = [] /\ (forall r res, ch_res ch' !! r = Some res -> load_res now (ps_config p) p r = Ok res).
Proof.
  intros H. unfold position_data in H. apply bind_ok in H as ([dec ch1] & E & H). apply bind_ok in H as (sc & _ & H).
  apply bind_ok in H as ([[[[cb cr] lb] lr] ch3] & Ef & [= <- <-]). unfold load_dec in E. simpl in E. apply bind_ok in E as (d0 & _ & [= <- <-]).
  apply health_cache in Ef as (C & S & R); [|intros r res; simpl; by rewrite lookup_empty]. simpl in C, S. rewrite C in R. done.
Qed.
Lemma shifted_zero r : shifted r 0 0 = r.
Proof. unfold shifted. destruct r as [? ? ? ? ? ? []]. simpl. by rewrite !Z.add_0_r. Qed.

(** ** Valuations of smaller positions *)
Lemma valued_mono w a r b d b' d' : good (pool w a) -> 0 <= price_of (pool w a) (w_ext w) r -> 0 <= b' <= b -> 0 <= d' <= d -> valued w a r b d -> valued w a r b' d'.
Proof.
  intros G Hp Hb Hd (Hac & Hpr & V1 & V2 & V3 & V4 & V5 & V6). split; [done|]. split; [done|].
  pose proof Hac as (cfg & d0 & d1 & Hc & _). destruct (data_rates (w_now w) (pool w a) r cfg G Hc) as [R1 R2]. unfold SCALAR_9 in R1, R2.
  assert (0 <= b_assets (w_now w) (pool w a) r b' <= b_assets (w_now w) (pool w a) r b) as Hba. { unfold b_assets. split; [apply Z.div_pos; nia|]. apply Z.div_le_mono; nia. }
  assert (0 <= d_assets (w_now w) (pool w a) r d' <= d_assets (w_now w) (pool w a) r d) as Hda. { unfold d_assets. split; [apply cdiv_nonneg; nia|]. apply cdiv_mono; nia. }
  unfold b_rate_now, d_rate_now in *. split; [nia|]. split; [lia|]. split; [nia|]. split; [nia|]. split; [lia|]. intros Hn. destruct (V6 ltac:(lia)) as [L V7]. split; [done|].
  assert (cdiv (d_assets (w_now w) (pool w a) r d' * 10000000) (rc_l_factor (cfg_of (pool w a) r)) <= cdiv (d_assets (w_now w) (pool w a) r d * 10000000) (rc_l_factor (cfg_of (pool w a) r))) by (apply cdiv_mono; lia).
  nia.
Qed.
Lemma all_valued_mono w a dec pos pos' : reachable w -> ps_init (pool w a) = true -> all_valued w a dec pos ->
  (forall i, 0 <= get_coll pos' i <= get_coll pos i /\ 0 <= get_liab pos' i <= get_liab pos i) -> all_valued w a dec pos'.
Proof.
  intros Hr Hi (Hdec & Hd18 & Hpr & Hval & F1 & F2) Hle. pose proof (reachable_good w a Hr Hi) as G. pose proof (reachable_dec _ _ _ Hr Hdec) as Hd0.
  assert (0 < 10 ^ dec) as Hs by (by apply Z.pow_pos_nonneg).
  split; [done|]. split; [done|]. split; [done|]. split.
  { intros i r Hl Hn. destruct (Hle (Z.of_nat i)) as [L1 L2]. eapply valued_mono; [done|apply Hpr; by eapply elem_of_list_lookup_2|exact L1|exact L2|]. apply Hval; [done|]. lia. }
  assert (forall i r, (i, r) ∈ indexed 0 (ps_list (pool w a)) -> exists cfg, ps_rcfg (pool w a) !! r = Some cfg /\ cfg_bounds cfg /\ 0 <= price_of (pool w a) (w_ext w) r /\
    (get_liab pos' i <> 0 -> 0 < rc_l_factor cfg) /\ 1000000000 <= rd_b_rate (data_at (w_now w) (pool w a) r) /\ 1000000000 <= rd_d_rate (data_at (w_now w) (pool w a) r) /\
    (0 <= liab_eff1 (w_now w) (pool w a) (w_ext w) r (get_liab pos i))) as Hin.
  { intros i r Hx. apply indexed_in in Hx as [Hi0 Hl]. rewrite Z.sub_0_r in Hl. destruct (cw_idx _ (gd_cfg _ G) _ _ Hl) as (cfg & Hc & _). exists cfg. split; [done|].
    split; [by apply (cw_valid _ (gd_cfg _ G) _ _ Hc)|]. pose proof (Hpr r ltac:(by eapply elem_of_list_lookup_2)) as Hp. split; [done|]. destruct (Hle i) as [L1 L2]. specialize (Hval _ r Hl). rewrite Z2Nat.id in Hval by done.
    destruct (data_rates (w_now w) (pool w a) r cfg G Hc) as [R1 R2]. unfold SCALAR_9 in R1, R2.
    assert (get_liab pos i <> 0 -> 0 < rc_l_factor cfg) as Hlf. { intros Hn. destruct (Hval ltac:(lia)) as (_ & _ & _ & _ & _ & _ & _ & V6). destruct (V6 ltac:(lia)) as [L _]. unfold cfg_of in L. rewrite Hc in L. done. }
    split; [intros Hn; apply Hlf; lia|]. split; [done|]. split; [done|].
    destruct (Z.eq_dec (get_liab pos i) 0) as [->|Hz]. { destruct (zero_values (w_now w) (pool w a) (w_ext w) r) as (_ & _ & -> & _). lia. }
    specialize (Hlf Hz). unfold liab_eff1. unfold cfg_of. rewrite Hc. pose proof (cw_valid _ (gd_cfg _ G) _ _ Hc) as V. assert (0 < 10 ^ rc_decimals cfg) by (apply Z.pow_pos_nonneg; [lia|apply V]).
    apply cdiv_nonneg; [done|]. apply Z.mul_nonneg_nonneg; [done|]. apply cdiv_nonneg; [done|]. apply Z.mul_nonneg_nonneg; [|lia]. unfold d_assets. apply cdiv_nonneg; nia. }
  split.
  - assert (raw_coll (w_now w) (pool w a) (w_ext w) pos' <= raw_coll (w_now w) (pool w a) (w_ext w) pos); [|nia].
    apply sumz_le. intros [i r] Hx. destruct (Hin i r Hx) as (cfg & Hc & Hb & Hp & _ & R1 & R2 & _). destruct (Hle i) as [L1 L2]. cbn [fst snd]. unfold coll_raw1, cfg_of. rewrite Hc.
    assert (0 < 10 ^ rc_decimals cfg) by (apply Z.pow_pos_nonneg; [lia|apply Hb]). apply Z.div_le_mono; [done|]. apply Z.mul_le_mono_nonneg_l; [done|]. unfold b_assets. apply Z.div_le_mono; nia.
  - assert (eff_liab (w_now w) (pool w a) (w_ext w) pos' <= eff_liab (w_now w) (pool w a) (w_ext w) pos); [|lia].
    apply sumz_le. intros [i r] Hx. destruct (Hin i r Hx) as (cfg & Hc & Hb & Hp & Hlf & R1 & R2 & N). destruct (Hle i) as [L1 L2]. cbn [fst snd].
    destruct (Z.eq_dec (get_liab pos' i) 0) as [->|Hz]. { destruct (zero_values (w_now w) (pool w a) (w_ext w) r) as (_ & _ & -> & _). done. }
    specialize (Hlf Hz). clear N. unfold liab_eff1, cfg_of. rewrite Hc.
    assert (0 < 10 ^ rc_decimals cfg) by (apply Z.pow_pos_nonneg; [lia|apply Hb]). apply cdiv_mono; [done|]. apply Z.mul_le_mono_nonneg_l; [done|]. apply cdiv_mono; [done|].
    apply Z.mul_le_mono_nonneg_r; [lia|]. unfold d_assets. apply cdiv_mono; nia.
Qed.

(** ** The estimate *)
Lemma estimate_total Cb Cr Lb Lr S pct : 0 <= pct <= 100 -> 0 < S <= 10 ^ 18 -> 0 <= Cb <= Cr -> 0 < Cr -> 0 < Lr <= Lb -> Cb <= Lb ->
  Cr * S <= i128_max -> 2 * Lb * S <= i128_max ->
  exists ps w wp, liq_estimate (mkPosData Cb Cr Lb Lr S) pct = Ok (ps, w, wp).
Proof.
  intros Hpct Hs Hc Hc0 Hl Hcl F1 F2. unfold liq_estimate. cbn [hd_coll_base hd_coll_raw hd_liab_base hd_liab_raw hd_scalar].
  rewrite i128_ok_nonneg by (unfold i128_max; nia). cbn [bind]. rewrite fdiv_floor_fits by nia. cbn [bind]. rewrite fdiv_floor_fits by nia. cbn [bind].
  pose proof (div_le_self S Cb Cr ltac:(lia) ltac:(lia) ltac:(lia)) as Hcf. rewrite (Z.mul_comm S Cb) in Hcf.
  assert (S <= Lb * S / Lr) as Hlf1. { apply Z.div_le_lower_bound; nia. }
  set (cf := Cb * S / Cr) in *. set (lf := Lb * S / Lr) in *.
  assert (0 <= cf * S <= S * S) as Hcs by nia. assert (S * S <= 10 ^ 36) as Hss by (change (10 ^ 36) with (10 ^ 18 * 10 ^ 18); nia).
  rewrite fdiv_ceil_fits by (unfold i128_max; lia). cbn [bind].
  assert (0 <= cdiv (cf * S) lf <= S) as Hq. { split; [apply cdiv_nonneg; nia|]. apply cdiv_le_iff; nia. }
  set (q := cdiv (cf * S) lf) in *. rewrite i128_ok_nonneg by (unfold i128_max; lia). cbn [bind].
  rewrite i128_ok_nonneg by (unfold i128_max; lia). cbn [bind].
  assert (0 <= (S - q) * S <= S * S) as Hqs by nia.
  rewrite fdiv_ceil_fits by (unfold i128_max; lia). cbn [bind].
  assert (0 <= cdiv ((S - q) * S) (2 * S) <= S) as Hinc. { split; [apply cdiv_nonneg; nia|]. apply cdiv_le_iff; nia. }
  set (inc := cdiv ((S - q) * S) (2 * S)) in *. rewrite i128_ok_nonneg by (unfold i128_max; lia). cbn [bind].
  rewrite Z.quot_div_nonneg by nia. assert (0 <= pct * S / 100 <= S) as Hps. { split; [apply Z.div_pos; nia|]. apply Z.div_le_upper_bound; nia. }
  set (ps := pct * S / 100) in *. clearbody ps inc q cf lf.
  assert (0 <= Lr * ps <= Lb * S) as H1 by nia. rewrite fmul_floor_fits by lia. cbn [bind].
  assert (0 <= Lr * ps / S <= Lr) as H2. { split; [apply Z.div_pos; lia|]. apply Z.div_le_upper_bound; nia. }
  set (l0 := Lr * ps / S) in *. clearbody l0.
  assert (0 <= l0 * (inc + S) <= 2 * Lb * S) as Hw by nia. rewrite fmul_floor_fits by lia. cbn [bind].
  assert (0 <= l0 * (inc + S) / S <= 2 * Lb) as Hw3. { split; [apply Z.div_pos; lia|]. apply Z.div_le_upper_bound; nia. }
  set (ww := l0 * (inc + S) / S) in *. clearbody ww.
  rewrite fdiv_ceil_fits by nia. cbn [bind]. eauto.
Qed.

(** ** The account after the lot and the bid are taken away *)
Lemma debited_getz w a (l : list (Addr * Z)) i : forall b, NoDup (l.*1) ->
  (forall r n s m, (r, n) ∈ l -> (s, m) ∈ l -> index_of w a r = index_of w a s -> r = s) ->
  (forall r n, (r, n) ∈ l -> index_of w a r = i -> getz (debited w a b l) i = getz b i - n) /\
  ((forall r n, (r, n) ∈ l -> index_of w a r <> i) -> getz (debited w a b l) i = getz b i).
Proof.
  induction l as [|[s m] l IH]; intros b Hnd Hinj. { split; [intros r n H; by apply elem_of_nil in H|done]. }
  apply NoDup_cons in Hnd as [Hni Hnd]. cbn [fst] in Hni.
  assert (forall r n, (r, n) ∈ l -> r <> s) as Hne. { intros r n H ->. apply Hni. apply elem_of_list_fmap. by exists (s, n). }
  unfold debited. cbn [foldl fst snd]. fold (debited w a (put b (index_of w a s) (amount_at b (index_of w a s) - m)) l).
  destruct (IH (put b (index_of w a s) (amount_at b (index_of w a s) - m)) Hnd) as [I1 I2]. { intros r n r' n' H1 H2. eapply Hinj; by right. }
  split.
  - intros r n H Hi. apply elem_of_cons in H as [[= -> ->]|H].
    + rewrite I2. { rewrite getz_put, Hi, decide_True by done. done. } intros r' n' H' Hi'. eapply (Hne _ _ H'). eapply Hinj; [by right|left|congruence].
    + rewrite (I1 r n H Hi). rewrite getz_put, decide_False; [done|]. intros Hs. eapply (Hne _ _ H). eapply Hinj; [by right|left|congruence].
  - intros H. rewrite I2; [|intros r n Hx; eapply H; by right]. rewrite getz_put, decide_False; [done|]. eapply H. left.
Qed.
Lemma quoted_taken w a (b : gmap Z Z) (q : gmap Addr Z) s S : good (pool w a) ->
  (forall i v, b !! i = Some v -> 0 <= i < Z.of_nat (length (reserve_list w a))) ->
  (forall (i : nat) r, ps_list (pool w a) !! i = Some r -> q !! r = (fun v => cdiv (v * s) S) <$> b !! Z.of_nat i) ->
  (forall r, r ∉ ps_list (pool w a) -> q !! r = None) ->
  forall i, getz (debited w a b (entries q)) i = getz b i - cdiv (getz b i * s) S.
Proof.
  intros G Hdom Q1 Q2 i.
  assert (forall r n, (r, n) ∈ entries q -> exists v, b !! index_of w a r = Some v /\ n = cdiv (v * s) S /\ ps_list (pool w a) !! Z.to_nat (index_of w a r) = Some r /\ 0 <= index_of w a r) as Hin.
  { intros r n H. apply elem_of_entries in H. destruct (decide (r ∈ ps_list (pool w a))) as [Hl|Hl]; [|by rewrite Q2 in H].
    apply elem_of_list_lookup in Hl as [j Hl]. rewrite (Q1 j r Hl) in H. destruct (b !! Z.of_nat j) as [v|] eqn:Eb; [|done]. injection H as <-.
    destruct (cw_idx _ (gd_cfg _ G) _ _ Hl) as (cfg & Hc & Hx). unfold index_of. rewrite Hc. assert (rc_index cfg = Z.of_nat j) as -> by done. rewrite Nat2Z.id. exists v. split; [done|]. split; [done|]. split; [done|]. lia. }
  destruct (debited_getz w a (entries q) i b (entries_fst_NoDup _)) as [D1 D2].
  { intros r n r' n' H1 H2 He. destruct (Hin _ _ H1) as (_ & _ & _ & L1 & _). destruct (Hin _ _ H2) as (_ & _ & _ & L2 & _). congruence. }
  destruct (b !! i) as [v|] eqn:Eb.
  - destruct (Hdom i v Eb) as [Hi0 Hi1]. destruct (lookup_lt_is_Some_2 (reserve_list w a) (Z.to_nat i) ltac:(lia)) as [r Hl].
    destruct (cw_idx _ (gd_cfg _ G) _ _ Hl) as (cfg & Hc & Hx). 
    assert (index_of w a r = i) as Hri. { unfold index_of. rewrite Hc. assert (rc_index cfg = Z.of_nat (Z.to_nat i)) as -> by done. lia. }
    rewrite (D1 r (cdiv (v * s) S)); [|apply elem_of_entries; rewrite (Q1 _ r Hl), Z2Nat.id, Eb by done; done|done]. unfold getz. rewrite Eb. done.
  - rewrite D2. { unfold getz. rewrite Eb. simpl. unfold cdiv. simpl. rewrite Zdiv_0_l. done. }
    intros r n H Hi. destruct (Hin _ _ H) as (v & E & _). rewrite Hi in E. congruence.
Qed.

(** everything that opening a liquidation auction computes can be computed *)
Definition liq_computable (w : World) (a u : Addr) (dec : Z) : Prop :=
  all_valued w a dec (positions w a u) /\ 2 * debt_weighted w a u * 10 ^ dec <= i128_max /\
  forall r, collateral (account w a u) r <> 0 \/ owed (account w a u) r <> 0 ->
    collateral (account w a u) r * 10 ^ dec <= i128_max /\ owed (account w a u) r * 10 ^ dec <= i128_max /\
    emis_fits (w_now w) (pool w a) u (index_of w a r * 2 + 1) /\ emis_fits (w_now w) (pool w a) u (index_of w a r * 2) /\
    (forall d, reserve w a r = Some d -> rd_b_supply d <= i128_max /\ rd_d_supply d <= i128_max).

Lemma taken_total w a u dec ls bs lot bid d0 ch1 :
  reachable w -> ps_init (pool w a) = true -> liq_computable w a u dec -> 0 <= dec ->
  0 < ls <= 10 ^ dec -> 0 < bs <= 10 ^ dec ->
  foldM (quote (ps_list (pool w a)) ls (10 ^ dec)) ∅ (entries (po_coll (positions w a u))) = Ok lot ->
  foldM (quote (ps_list (pool w a)) bs (10 ^ dec)) ∅ (entries (po_liab (positions w a u))) = Ok bid ->
  position_data (w_now w) (pool w a) (w_ext w) (pool_load (pool w a)) (positions w a u) = Ok (d0, ch1) ->
  exists q ch pos', rm_positions (w_now w) u (pool w a, ch1, positions w a u) lot bid = Ok (q, ch, pos') /\
    ps_list q = ps_list (pool w a) /\ sees (w_now w) (w_ext w) (pool w a) q (pool_load (pool w a)) ch /\
    (forall i, get_coll pos' i = get_coll (positions w a u) i - cdiv (get_coll (positions w a u) i * ls) (10 ^ dec)) /\
    (forall i, get_liab pos' i = get_liab (positions w a u) i - cdiv (get_liab (positions w a u) i * bs) (10 ^ dec)) /\
    po_sup pos' = po_sup (positions w a u).
Proof.
  intros Hr Hi (Hval & _ & Hc) Hd0 Hls Hbs El Eb Epd. pose proof (reachable_good w a Hr Hi) as G. set (p := pool w a) in *. set (S := 10 ^ dec) in *.
  assert (0 < S) as Hs by (by apply Z.pow_pos_nonneg).
  set (pos := positions w a u) in *.
  assert (forall k i, 0 <= getz (get_k k pos) i) as Hpos by (intros k i; by apply pos_ok_getz, G).
  pose proof (position_cache _ _ _ _ _ _ Epd) as (K1 & K2 & K3).
  eapply (position_data_spec (w_now w) p (w_ext w) (pool_load p) pos ∅) in Epd as Es; [|apply pool_load_cwf|done|apply G|apply pool_load_pwf|exact Hpos].
  destruct Es as (_ & _ & Kp & _).
  pose proof El as Ql. apply quote_asset in Ql as [L1 L2]; [|apply G|done]. pose proof Eb as Qb. apply quote_asset in Qb as [Q1 Q2]; [|apply G|done].
  set (ch0 := ch1 <| ch_dec := None |> <| ch_price := ∅ |>).
  assert (priced ch1 ch0 = ch1) as Hch1 by (by destruct ch1).
  assert (mid w a (fun _ => 0) (fun _ => 0) (fun _ _ => False) (fun _ _ => False) p ch0) as M0.
  { constructor; try done; try (intros; by left).
    - intros r. change (ch_res ch0) with (ch_res ch1). destruct (ch_res ch1 !! r) as [res|] eqn:E; [|done]. exists res. split; [by apply K3|]. by rewrite shifted_zero.
    - intros r Hx. change (ch_store ch0) with (ch_store ch1) in Hx. rewrite K2 in Hx. by apply elem_of_nil in Hx. }
  (* what is taken of an asset *)
  assert (forall k s (q : gmap Addr Z), 0 < s <= S -> (k = KColl \/ k = KLiab) ->
    (forall (i : nat) r, ps_list p !! i = Some r -> q !! r = (fun v => cdiv (v * s) S) <$> get_k k pos !! Z.of_nat i) -> (forall r, r ∉ ps_list p -> q !! r = None) ->
    forall r n, (r, n) ∈ entries q -> exists (i : nat) v cfg d, ps_list p !! i = Some r /\ get_k k pos !! Z.of_nat i = Some v /\ ps_rcfg p !! r = Some cfg /\ index_of w a r = Z.of_nat i /\
      rc_index cfg = Z.of_nat i /\ reserve w a r = Some d /\ 0 < n <= v /\ accruable w a r) as Hq.
  { intros k s q Hs0 Hk R1 R2 r n H. apply elem_of_entries in H. destruct (decide (r ∈ ps_list p)) as [Hl|Hl]; [|by rewrite R2 in H].
    apply elem_of_list_lookup in Hl as [i Hl]. rewrite (R1 i r Hl) in H. destruct (get_k k pos !! Z.of_nat i) as [v|] eqn:Ev; [|done]. injection H as <-.
    pose proof (gd_pos _ G u k _ v Ev) as Hv0.
    destruct (cw_idx _ (gd_cfg _ G) _ _ Hl) as (cfg & Hcf & Hx). assert (index_of w a r = Z.of_nat i) as Hri by (unfold index_of; fold p; by rewrite Hcf).
    destruct Hval as (_ & _ & _ & Hval & _). destruct (Hval i r Hl) as (Hac & _).
    { fold pos. unfold get_coll, get_liab, getz. destruct Hk as [->| ->]; cbn [get_k] in Ev; rewrite Ev; [left|right]; simpl; lia. }
    pose proof Hac as (cfg' & d & _ & _ & Hd & _). exists i, v, cfg, d. repeat (split; [done|]). split; [|done].
    pose proof (part_le v s S Hs ltac:(lia) ltac:(lia)). assert (cdiv (v * s) S <> 0); [|lia]. intros Hz. pose proof (cdiv_spec (v * s) S Hs). nia. }
  assert (forall r n, (r, n) ∈ entries lot -> exists (i : nat) v cfg d, ps_list p !! i = Some r /\ po_coll pos !! Z.of_nat i = Some v /\ ps_rcfg p !! r = Some cfg /\ index_of w a r = Z.of_nat i /\
      rc_index cfg = Z.of_nat i /\ reserve w a r = Some d /\ 0 < n <= v /\ accruable w a r) as Hq1 by exact (Hq KColl ls lot Hls ltac:(by left) L1 L2).
  assert (forall r n, (r, n) ∈ entries bid -> exists (i : nat) v cfg d, ps_list p !! i = Some r /\ po_liab pos !! Z.of_nat i = Some v /\ ps_rcfg p !! r = Some cfg /\ index_of w a r = Z.of_nat i /\
      rc_index cfg = Z.of_nat i /\ reserve w a r = Some d /\ 0 < n <= v /\ accruable w a r) as Hq2 by exact (Hq KLiab bs bid Hbs ltac:(by right) Q1 Q2).
  clear Hq.
  destruct (remove_coll_total w a Hr G u (entries lot) _ _ _ _ p ch0 pos M0 (entries_fst_NoDup _)) as (q1 & ch2 & pu1 & Tb1 & E1 & S1 & Li1 & C1 & M1 & X1).
  { intros r n Hn. destruct (Hq1 r n Hn) as (i & v & cfg & d & Hl & Hv & Hcf & Hri & Hxi & Hd & Hnv & Hac).
    destruct (owed_at w a u i r G Hl) as (O1 & O2 & _). fold pos in O1, O2. unfold get_coll, getz in O2. rewrite Hv in O2. change (from_option id 0 (Some v)) with v in O2.
    destruct (Hc r ltac:(left; rewrite O2; lia)) as (_ & _ & He1 & He2 & Hsup). specialize (Hsup d Hd).
    destruct (tok_of_tid p KColl r cfg d u G Hcf Hd) as (_ & Ha & Hb & Hsu & _). cbn [tid sup_k ebal] in *.
    pose proof (tok_list p (rc_index cfg * 2 + 1) [u] G ltac:(rewrite Ha; eauto) ltac:(apply NoDup_singleton)) as Ht. rewrite sumz_cons, sumz_nil, Hsu in Ht.
    pose proof (Hpos KSup (Z.of_nat i)) as Hsp. pose proof (Hpos KColl (Z.of_nat i)) as Hcl. cbn [get_k] in Hsp, Hcl.
    assert (tok_bal p u (rc_index cfg * 2 + 1) = amount_at (po_coll pos) (Z.of_nat i) + amount_at (po_sup pos) (Z.of_nat i)) as Hbal by (rewrite Hb, Hxi; done).
    assert (amount_at (po_coll pos) (Z.of_nat i) = v) as Hav by (unfold amount_at; by rewrite Hv).
    unfold getz in Hsp, Hcl. unfold amount_at in Hbal, Hav |- *. rewrite Hri in *. rewrite Hxi in *.
    split; [constructor; [done|lia|by rewrite Hri|intros d2 Hd2; assert (d2 = d) as -> by congruence; lia]|].
    split; [intros []|]. split; [done|]. rewrite Hav in *. split; [lia|]. split; [exact Hsp|]. fold p. lia. }
  destruct (remove_liab_total w a Hr G u (entries bid) _ _ _ _ q1 ch2 pu1 M1 (entries_fst_NoDup _)) as (q2 & ch3 & E2 & M2).
  { intros r n Hn. destruct (Hq2 r n Hn) as (i & v & cfg & d & Hl & Hv & Hcf & Hri & Hxi & Hd & Hnv & Hac).
    destruct (owed_at w a u i r G Hl) as (O1 & O2 & _). fold pos in O1, O2. unfold get_liab, getz in O1. rewrite Hv in O1. change (from_option id 0 (Some v)) with v in O1.
    destruct (Hc r ltac:(right; rewrite O1; lia)) as (_ & _ & He1 & He2 & Hsup). specialize (Hsup d Hd).
    destruct (tok_of_tid p KLiab r cfg d u G Hcf Hd) as (_ & Ha & Hb & Hsu & _). cbn [tid sup_k ebal] in *.
    pose proof (tok_list p (rc_index cfg * 2) [u] G ltac:(rewrite Ha; eauto) ltac:(apply NoDup_singleton)) as Ht. rewrite sumz_cons, sumz_nil, Hsu in Ht.
    assert (tok_bal p u (rc_index cfg * 2) = v) as Hbal. { rewrite Hb, Hxi. change (getz (po_liab pos) (Z.of_nat i) = v). unfold getz. by rewrite Hv. }
    rewrite Li1. unfold amount_at. rewrite Hri in *. rewrite Hxi in *. rewrite Hv. simpl. split; [done|]. split; [lia|]. split; [lia|].
    split; [intros d2 Hd2; assert (d2 = d) as -> by congruence; lia|]. right. split; [intros []|]. done. }
  exists q2, (priced ch1 ch3), (pu1 <| po_liab := debited w a (po_liab pu1) (entries bid) |>).
  split. { rewrite <- Hch1 at 1. apply rm_priced. unfold rm_positions. fold pos. rewrite E1. cbn [bind]. exact E2. }
  destruct M2 as [(P1 & P2 & P3 & P4 & P5) (C2 & C3 & C4) Mr Ms _ _ _ _ _]. split; [done|]. split.
  { constructor; [exact C2| |done|done|].
    - destruct Kp as [Kp1 Kp2]. rewrite K1 in Kp1, Kp2. constructor; simpl; rewrite C2; [exact Kp1|exact Kp2].
    - intros s res Hl. unfold load_reserve in Hl |- *. cbn [andb] in Hl |- *. change (ch_res (priced ch1 ch3)) with (ch_res ch3). change (ch_cfg (priced ch1 ch3)) with (ch_cfg ch3).
      simpl in Hl. rewrite lookup_empty in Hl. apply bind_ok in Hl as (res0 & Hl & Hx). injection Hx as ->.
      specialize (Mr s). destruct (ch_res ch3 !! s) as [r2|].
      + destruct Mr as (res' & E & ->). assert (res' = res) as -> by (fold p in E; congruence). eexists. split; [reflexivity|]. done.
      + rewrite C2. unfold load_res. rewrite P2, P3. fold p. fold (load_res (w_now w) (ps_config p) p s). rewrite Hl. cbn [bind]. eexists. split; [reflexivity|]. done. }
  split. { intros i. unfold get_coll. simpl. rewrite C1. apply quoted_taken; [done| |exact L1|exact L2]. intros j v Hv. by eapply (gd_idx _ G u KColl). }
  split. { intros i. unfold get_liab. simpl. rewrite Li1. apply quoted_taken; [done| |exact Q1|exact Q2]. intros j v Hv. by eapply (gd_idx _ G u KLiab). }
  simpl. exact S1.
Qed.

(** ** C67: a liquidation auction can be opened exactly when ... *)
Theorem C67_liquidation_auction : forall w sg a u pct dec,
  reachable w -> forallb ok_signer sg = true -> ps_init (pool w a) = true -> 0 <= w_seq w < u32_max ->
  liq_computable w a u dec ->
  (succeeds w (OPool sg a (PNewLiq u pct)) <->
   u <> a /\ u <> ps_backstop (pool w a) /\ auction w a 0 u = None /\ 1 <= pct <= 100 /\
   0 < coll_worth w a u /\ 0 < debt_worth w a u /\ coll_weighted w a u <= debt_weighted w a u /\
   (if pct =? 100 then coll_worth w a u <= lot_worth w a u dec pct
    else 0 < bid_share dec pct /\ 0 < lot_share w a u dec pct /\ in_band w a dec (left_with w a u dec pct))).
Proof.
  intros w sg a u pct dec Hr Hok Hi Hseq Hcomp. pose proof Hcomp as (Hval & Hfit & Hasset). pose proof Hval as (Hdec & Hd18 & Hpr & Hv & F1 & F2).
  split.
  { intros (out & w' & H). destruct (C67_liquidation_needs _ _ _ _ _ _ _ Hr H Hpr) as (au & dec' & _ & Hdec' & A1 & A2 & A3 & A4 & A5 & A6 & A7 & _ & _ & A8).
    assert (dec' = dec) as -> by congruence. by repeat (split; [done|]). }
  intros (Ha & Hb & Hau & Hpct & Hc0 & Hl0 & Hel & Hlast).
  pose proof (reachable_good w a Hr Hi) as G. pose proof (reachable_dec _ _ _ Hr Hdec) as Hd0.
  assert (w_pools w !! a = Some (pool w a)) as Hp. { unfold pool in *. destruct (w_pools w !! a); [done|]. discriminate Hi. }
  assert (0 < 10 ^ dec) as Hs by (by apply Z.pow_pos_nonneg). assert (10 ^ dec <= 10 ^ 18) as Hs18 by (by apply Z.pow_le_mono_r).
  assert (forall k j, 0 <= getz (get_k k (positions w a u)) j) as Hpos by (intros k j; apply pos_ok_getz, G).
  assert (forall (i : nat) r, reserve_list w a !! i = Some r -> get_liab (positions w a u) (Z.of_nat i) <> 0 -> 0 < rc_l_factor (cfg_of (pool w a) r)) as Hlf.
  { intros i r Hl Hn. destruct (Hv i r Hl ltac:(by right)) as (_ & _ & _ & _ & _ & _ & _ & V). by apply V. }
  destruct (raw_bounds (w_now w) (pool w a) (w_ext w) (positions w a u) G Hpos Hpr Hlf) as [B1 B2].
  destruct (eff_nonneg (w_now w) (pool w a) (w_ext w) (positions w a u) G (fun k i _ _ => Hpos k _) Hpr Hlf) as [B3 B4].
  destruct (position_at w a (positions w a u) dec Hr Hi Hval Hpos) as (d & ch & E & _).
  eapply (position_data_spec (w_now w) (pool w a) (w_ext w) (pool_load (pool w a)) (positions w a u) ∅) in E as Es; [|apply pool_load_cwf|done|apply G|apply pool_load_pwf|exact Hpos].
  destruct Es as (_ & _ & _ & D1 & D2 & D3 & D4 & (dec' & Hdec' & D5) & _). assert (dec' = dec) as -> by congruence.
  assert (flush (pool w a) (pool_load (pool w a)) ∅ = pool w a) as Hfl. { rewrite flush_fresh. rewrite (left_id_L ∅ (∪)). by destruct (pool w a). }
  rewrite Hfl in D1, D2, D3, D4. clear Hfl.
  change (eff_coll _ _ _ _) with (coll_weighted w a u) in D1, B1, B3. change (raw_coll _ _ _ _) with (coll_worth w a u) in D2, B1, F1.
  change (eff_liab _ _ _ _) with (debt_weighted w a u) in D3, B2, B4, F2. change (raw_liab _ _ _ _) with (debt_worth w a u) in D4, B2.
  destruct d as [Cb Cr Lb Lr sc]. cbn [hd_coll_base hd_coll_raw hd_liab_base hd_liab_raw hd_scalar] in D1, D2, D3, D4, D5. subst Cb Cr Lb Lr sc.
  destruct (estimate_total (coll_weighted w a u) (coll_worth w a u) (debt_weighted w a u) (debt_worth w a u) (10 ^ dec) pct ltac:(lia) ltac:(lia) ltac:(lia) Hc0 ltac:(lia) Hel F1 Hfit) as (ps & ww & wp & Ele).
  pose proof Ele as Ex. apply estimate_exact in Ex as (_ & _ & Eps & Ew & Ewp); [|lia|done|lia|lia].
  assert (ps = bid_share dec pct) as -> by done.
  assert (ww = lot_worth w a u dec pct) as -> by done.
  assert (wp = lot_share w a u dec pct) as -> by done. clear Eps Ew Ewp.
  pose proof (share_bounds dec pct Hd0 ltac:(lia)) as Hbs.
  assert (0 <= lot_share w a u dec pct <= 10 ^ dec) as Hls.
  { destruct (Z.eqb_spec pct 100); [|destruct Hlast as (_ & ? & _); unfold lot_share in *; lia].
    split; [|unfold lot_share; lia]. unfold lot_share. apply Z.min_glb; [lia|]. apply cdiv_nonneg; [done|]. apply Z.mul_nonneg_nonneg; lia. }
  assert (forall (m : gmap Z Z) s, (m = po_coll (positions w a u) \/ m = po_liab (positions w a u)) -> 0 <= s <= 10 ^ dec ->
    forall i v, (i, v) ∈ entries m -> 0 <= i /\ is_Some (ps_list (pool w a) !! Z.to_nat i) /\ 0 <= v /\ v * s <= i128_max) as Hq.
  { intros m s Hm Hs1 i v Hiv. apply elem_of_entries in Hiv.
    assert (exists k, (k = KColl \/ k = KLiab) /\ get_k k (positions w a u) !! i = Some v) as (k & Hk & Hkv) by (destruct Hm as [->| ->]; [exists KColl|exists KLiab]; auto).
    pose proof (gd_idx _ G u k i v Hkv) as Hib. pose proof (gd_pos _ G u k i v Hkv) as Hv0. split; [lia|].
    destruct (lookup_lt_is_Some_2 (ps_list (pool w a)) (Z.to_nat i) ltac:(lia)) as [r Hlr]. split; [eauto|]. split; [lia|].
    destruct (owed_at w a u (Z.to_nat i) r G Hlr) as (O1 & O2 & _). rewrite Z2Nat.id in O1, O2 by lia.
    unfold get_liab, get_coll, getz in O1, O2.
    assert (v * 10 ^ dec <= i128_max); [|nia].
    destruct Hk as [-> | ->]; cbn [get_k] in Hkv.
    - rewrite Hkv in O2. change (collateral (account w a u) r = v) in O2. destruct (Hasset r ltac:(left; rewrite O2; lia)) as (Hc & _). rewrite O2 in Hc. exact Hc.
    - rewrite Hkv in O1. change (owed (account w a u) r = v) in O1. destruct (Hasset r ltac:(right; rewrite O1; lia)) as (_ & Hc & _). rewrite O1 in Hc. exact Hc. }
  destruct (quote_total (ps_list (pool w a)) (lot_share w a u dec pct) (10 ^ dec) (entries (po_coll (positions w a u))) ∅ Hs ltac:(lia) (Hq _ _ ltac:(by left) Hls)) as [lot E1].
  destruct (quote_total (ps_list (pool w a)) (bid_share dec pct) (10 ^ dec) (entries (po_liab (positions w a u))) ∅ Hs ltac:(lia) (Hq _ _ ltac:(by right) Hbs)) as [bid E2].
  unfold succeeds, exec. rewrite Hok, Hp. cbn [ty_pop]. rewrite (proj2 (in_u64_iff pct)) by (unfold u64_max; lia). cbn [andb unwrap bind]. unfold p_exec. cbn [px_p px_x]. rewrite Hi. cbn [negb].
  unfold create_liquidation. rewrite (proj2 (Z.eqb_neq u a)), (proj2 (Z.eqb_neq u (ps_backstop (pool w a)))) by done. cbn [orb negb].
  unfold create_user_liq. unfold has_auction. unfold auction in Hau. rewrite Hau. rewrite bool_decide_false by (by intros [? ?]). cbn [negb].
  rewrite (proj2 (Z.ltb_ge 100 pct)), (proj2 (Z.eqb_neq pct 0)) by lia. cbn [orb negb]. change (c_seq (ctx w sg)) with (w_seq w). change (c_now (ctx w sg)) with (w_now w).
  unfold u32. rewrite (proj2 (in_u32_iff (w_seq w + 1))) by lia. cbn [bind]. change (get_pos (pool w a) u) with (positions w a u). rewrite E. cbn [bind hd_liab_base hd_coll_base hd_coll_raw hd_scalar].
  rewrite (proj2 (Z.ltb_ge (debt_weighted w a u) (coll_weighted w a u))) by lia. cbn [negb]. rewrite Ele. cbn [bind]. rewrite E1. cbn [bind]. rewrite E2. cbn [bind].
  destruct (Z.eqb_spec pct 100) as [->|Hp100].
  { rewrite (proj2 (Z.ltb_ge _ (coll_worth w a u))) by lia. cbn [negb bind]. eauto. }
  destruct Hlast as (Hb0 & Hls0 & Hband).
  destruct (taken_total w a u dec _ _ lot bid _ ch Hr Hi Hcomp Hd0 ltac:(split; [exact Hls0|apply Hls]) ltac:(split; [exact Hb0|apply Hbs]) E1 E2 E) as (q & ch2 & pos' & Erm & Lq & Hsee & T1 & T2 & T3).
  rewrite Erm. cbn [bind].
  assert (forall k j, 0 <= getz (get_k k pos') j) as Hpos'.
  { intros k j. pose proof (Hpos KColl j) as X1. pose proof (Hpos KLiab j) as X2. pose proof (Hpos KSup j) as X3. cbn [get_k] in X1, X2, X3.
    pose proof (part_le _ _ (10 ^ dec) Hs Hls X1) as Y1. pose proof (part_le _ _ (10 ^ dec) Hs Hbs X2) as Y2. specialize (T1 j). specialize (T2 j).
    unfold get_coll, get_liab in T1, T2. destruct k; cbn [get_k]; [rewrite T2; lia|rewrite T1; lia|rewrite T3; exact X3]. }
  assert (all_valued w a dec pos') as Hval'.
  { eapply all_valued_mono; [done|done|exact Hval|]. intros j. pose proof (Hpos KColl j) as X1. pose proof (Hpos KLiab j) as X2. cbn [get_k] in X1, X2.
    pose proof (part_le _ _ (10 ^ dec) Hs Hls X1) as Y1. pose proof (part_le _ _ (10 ^ dec) Hs Hbs X2) as Y2.
    rewrite T1, T2. unfold get_coll, get_liab. lia. }
  destruct (position_at w a pos' dec Hr Hi Hval' Hpos') as (d & ch3 & E3 & D1 & D2 & D3 & D4 & D5).
  destruct (position_sees _ _ _ _ _ _ _ _ _ Hsee Lq E3) as (ch4 & E4). rewrite E4. cbn [bind].
  destruct (values_ext (w_now w) (pool w a) (w_ext w) (left_with w a u dec pct) pos') as (W1 & _ & W3 & _).
  { intros i r _. destruct (left_at w a u dec pct (Z.of_nat i)) as (-> & -> & _). rewrite T1, T2. done. }
  unfold in_band in Hband. rewrite <- W1, <- W3, <- D1, <- D2 in Hband. destruct Hval' as (_ & _ & _ & _ & F1' & F2').
  assert (0 < 10 ^ dec * 10300000 / 10000000) as Hm1. { apply Z.div_str_pos. lia. }
  assert (0 < cdiv (10 ^ dec * 11500000) 10000000) as Hm2. { pose proof (cdiv_spec (10 ^ dec * 11500000) 10000000 ltac:(lia)). lia. }
  assert (0 < hd_liab_base d) as HL by nia.
  assert (0 <= hd_coll_base d * 10 ^ dec <= i128_max) as HC by nia.
  unfold is_hf_over, is_hf_under, as_hf. rewrite D3, (proj2 (Z.eqb_neq (hd_liab_base d) 0)) by lia. unfold SCALAR_7.
  rewrite fmul_ceil_fits' by (unfold i128_max; lia). cbn [bind]. rewrite fdiv_floor_fits by done. cbn [bind].
  rewrite (proj2 (Z.ltb_ge _ _)); swap 1 2. { apply Z.lt_succ_r. apply Z.div_lt_upper_bound; lia. }
  cbn [negb bind]. rewrite fmul_floor_fits by (unfold i128_max; lia). cbn [bind]. rewrite (proj2 (Z.ltb_ge _ _)); swap 1 2. { apply Z.div_le_lower_bound; lia. }
  cbn [negb bind]. eauto.
Qed.
