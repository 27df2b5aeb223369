(** * Health: the value of a position, and submit as a whole *)
From Verif Require Import Base Types Token Emitter Factory Backstop PoolReserve PoolUser PoolHealth
  PoolAuction PoolSubmit PoolEmis PoolAdmin World Facts PoolFrame PoolCfg PoolAccrue PoolTrace PoolInv AuctionFacts PoolSim PoolReq.

(** ** Specification of position values *)

(** reserve data with interest accrued to [now] *)
Definition data_at (now : Z) (p : PoolSt) (a : Addr) : ResData :=
  match ps_rcfg p !! a, ps_rdata p !! a with
  | Some cfg, Some d =>
      match accrue now (pc_bstop_rate (ps_config p)) cfg d with Ok d' => d' | Err _ => d end
  | _, _ => mkResData 0 0 0 0 0 0 0
  end.
(** oracle price of an asset *)
Definition price_of (p : PoolSt) (x : Ext) (a : Addr) : Z :=
  match o_price (x_orc x) !! (pc_oracle (ps_config p), a) with Some e => fst e | None => 0 end.
(** configuration of a listed asset *)
Definition cfg_of (p : PoolSt) (a : Addr) : ResConfig :=
  default (mkResConfig 0 0 0 0 0 0 0 0 0 0 0) (ps_rcfg p !! a).

(** underlying value of [n] bTokens (rounded down) and [n] dTokens (rounded up) *)
Definition b_assets (now : Z) (p : PoolSt) (a n : Z) : Z := n * rd_b_rate (data_at now p a) / 1000000000.
Definition d_assets (now : Z) (p : PoolSt) (a n : Z) : Z := cdiv (n * rd_d_rate (data_at now p a)) 1000000000.

(** oracle value of collateral and liabilities in one reserve: plain, and effective,
    i.e. after applying the collateral factor and the liability factor *)
Definition coll_raw1 (now : Z) (p : PoolSt) (x : Ext) (a n : Z) : Z :=
  price_of p x a * b_assets now p a n / 10 ^ rc_decimals (cfg_of p a).
Definition coll_eff1 (now : Z) (p : PoolSt) (x : Ext) (a n : Z) : Z :=
  price_of p x a * (b_assets now p a n * rc_c_factor (cfg_of p a) / 10000000) / 10 ^ rc_decimals (cfg_of p a).
Definition liab_raw1 (now : Z) (p : PoolSt) (x : Ext) (a n : Z) : Z :=
  cdiv (price_of p x a * d_assets now p a n) (10 ^ rc_decimals (cfg_of p a)).
Definition liab_eff1 (now : Z) (p : PoolSt) (x : Ext) (a n : Z) : Z :=
  cdiv (price_of p x a * cdiv (d_assets now p a n * 10000000) (rc_l_factor (cfg_of p a))) (10 ^ rc_decimals (cfg_of p a)).

(** the sums over all reserves, for the positions [pos] *)
Definition over_reserves (p : PoolSt) (f : Z -> Addr -> Z) : Z :=
  sumz (fun ia => f (fst ia) (snd ia)) (indexed 0 (ps_list p)).
Definition eff_coll (now : Z) (p : PoolSt) (x : Ext) (pos : Positions) : Z :=
  over_reserves p (fun i a => coll_eff1 now p x a (get_coll pos i)).
Definition raw_coll (now : Z) (p : PoolSt) (x : Ext) (pos : Positions) : Z :=
  over_reserves p (fun i a => coll_raw1 now p x a (get_coll pos i)).
Definition eff_liab (now : Z) (p : PoolSt) (x : Ext) (pos : Positions) : Z :=
  over_reserves p (fun i a => liab_eff1 now p x a (get_liab pos i)).
Definition raw_liab (now : Z) (p : PoolSt) (x : Ext) (pos : Positions) : Z :=
  over_reserves p (fun i a => liab_raw1 now p x a (get_liab pos i)).

(** ** Cached prices are oracle prices *)
Record pwf (now : Z) (x : Ext) (ch : Cache) : Prop := {
  pf_price : forall a v, ch_price ch !! a = Some v ->
    exists t, o_price (x_orc x) !! (pc_oracle (ch_cfg ch), a) = Some (v, t) /\ now <= t + 86400;
  pf_dec : forall d, ch_dec ch = Some d -> o_dec (x_orc x) !! pc_oracle (ch_cfg ch) = Some d
}.
Definition pr_same (ch ch' : Cache) : Prop := ch_price ch' = ch_price ch /\ ch_dec ch' = ch_dec ch /\ ch_cfg ch' = ch_cfg ch.
Lemma pr_refl ch : pr_same ch ch. Proof. done. Qed.
Lemma pr_trans a b c : pr_same a b -> pr_same b c -> pr_same a c.
Proof. unfold pr_same. intuition congruence. Qed.
Lemma pwf_same now x ch ch' : pr_same ch ch' -> pwf now x ch -> pwf now x ch'.
Proof. intros (H1 & H2 & H3) []. constructor; rewrite ?H1, ?H2, ?H3; done. Qed.
Lemma pool_load_pwf now x p : pwf now x (pool_load p).
Proof. constructor; simpl; [intros ? ? H; by rewrite lookup_empty in H|done]. Qed.

Lemma load_reserve_pr now p ch a st r ch' : load_reserve now p ch a st = Ok (r, ch') -> pr_same ch ch'.
Proof.
  unfold load_reserve. intros H. destruct (st && _); simpl in H; destruct (ch_res ch !! a); mon H; done.
Qed.
Lemma pos_step_pr f now u s e s' : pos_step f now u s e = Ok s' -> pr_same s.1.2 s'.1.2.
Proof. destruct s as [[p ch] pos]. unfold pos_step. intros H. mon H. simpl. match goal with E : load_reserve _ _ _ _ _ = _ |- _ => apply load_reserve_pr in E end. done. Qed.
Lemma pos_steps_pr f now u l s s' : foldM (pos_step f now u) s l = Ok s' -> pr_same s.1.2 s'.1.2.
Proof.
  intros H. eapply (foldM_rel (fun s s' : Fl => pr_same s.1.2 s'.1.2)) in H; [exact H|done|intros; by eapply pr_trans|].
  intros; by eapply pos_step_pr.
Qed.
Lemma rm_positions_pr now u s c l s' : rm_positions now u s c l = Ok s' -> pr_same s.1.2 s'.1.2.
Proof. unfold rm_positions. intros H. mon1 H. apply pos_steps_pr in E, H. by eapply pr_trans. Qed.
Lemma add_positions_pr now u s c l s' : add_positions now u s c l = Ok s' -> pr_same s.1.2 s'.1.2.
Proof. unfold add_positions. intros H. mon1 H. apply pos_steps_pr in E, H. by eapply pr_trans. Qed.
Lemma interest_fill_pr c self filler p l s s' :
  foldM (interest_fill_one c self filler p) s l = Ok s' -> pr_same s.1 s'.1.
Proof.
  intros H. eapply (foldM_rel (fun s s' : Cache * Ext => pr_same s.1 s'.1)) in H; [exact H|done|intros; by eapply pr_trans|].
  intros [ch x] e [ch' x'] _ Hs. unfold interest_fill_one in Hs. mon Hs. simpl.
  match goal with E : load_reserve _ _ _ _ _ = _ |- _ => apply load_reserve_pr in E end. done.
Qed.
Lemma fill_pr c self p x ch t u f fpos pct p' ch' fpos' x' :
  fill c self p x ch t u f fpos pct = Ok ((p', ch', fpos'), x') -> pr_same ch ch'.
Proof.
  unfold fill. intros H. mon H.
  match goal with E : (if t =? 0 then _ else _) = Ok _ |- _ => rename E into Ef end.
  destruct (t =? 0); [|destruct (t =? 1)].
  - mon Ef. match goal with E : fill_user_liq _ _ _ _ _ _ _ = Ok _ |- _ => unfold fill_user_liq in E; mon E end.
    match goal with E : rm_positions _ _ _ _ _ = Ok _, E' : add_positions _ _ _ _ _ = Ok _ |- _ =>
      apply rm_positions_pr in E; apply add_positions_pr in E'; simpl in *; by eapply pr_trans end.
  - unfold fill_bad_debt in Ef. mon Ef.
    match goal with E : rm_positions _ _ _ _ _ = Ok (_, ?h1, _), E' : add_positions _ _ _ _ _ = Ok (_, ?h2, _) |- _ =>
      apply rm_positions_pr in E; apply add_positions_pr in E'; simpl in *;
      assert (pr_same ch h2) as Hp by (by eapply pr_trans) end.
    destruct (bool_decide _); [mon Ef; done|]. mon1 Ef. destruct (_ <? 3); mon Ef; [|done].
    match goal with E : rm_positions _ _ (_, _, _) _ m = Ok _ |- _ => apply rm_positions_pr in E; simpl in E; by eapply pr_trans end.
  - mon Ef. match goal with E : fill_interest _ _ _ _ _ _ _ = Ok _ |- _ => unfold fill_interest in E; mon E end.
    match goal with E : foldM (interest_fill_one _ _ _ _) _ _ = Ok _ |- _ => apply interest_fill_pr in E; exact E end.
Qed.
Lemma do_request_pr c self from s q s' : do_request c self from s q = Ok s' -> pr_same (lo_ch s) (lo_ch s').
Proof.
  unfold do_request. intros H. mon1 H. mon1 H.
  assert (forall t chk, do_fill c self from t chk s q = Ok s' -> pr_same (lo_ch s) (lo_ch s')) as Hf.
  { intros t chk Hd. unfold do_fill in Hd. mon Hd. simpl. by eapply fill_pr. }
  repeat match type of H with
  | match ?x with _ => _ end = Ok _ => destruct x
  | Err _ = Ok _ => discriminate H
  end; try (by eapply Hf);
  unfold do_supply, do_delete, do_repay, do_withdraw_coll, do_borrow, do_supply_coll, do_withdraw in H;
  mon H; try (destruct (_ <? _); mon H); simpl; try done;
  match goal with E : load_reserve _ _ _ _ _ = _ |- _ => apply load_reserve_pr in E; exact E end.
Qed.
Lemma do_requests_pr c self from qs s s' :
  foldM (do_request c self from) s qs = Ok s' -> pr_same (lo_ch s) (lo_ch s').
Proof.
  intros H. eapply (foldM_rel (fun s s' : Loop => pr_same (lo_ch s) (lo_ch s'))) in H; [exact H|done|intros; by eapply pr_trans|].
  intros; by eapply do_request_pr.
Qed.

(** ** Position data *)
Lemma data_at_load now p a r : load_res now (ps_config p) p a = Ok r ->
  data_at now p a = r_data r /\ r_asset r = a /\ r_scalar r = 10 ^ rc_decimals (cfg_of p a) /\
  r_c_factor r = rc_c_factor (cfg_of p a) /\ r_l_factor r = rc_l_factor (cfg_of p a) /\ r_index r = rc_index (cfg_of p a).
Proof.
  intros H. pose proof (load_res_fields _ _ _ _ _ H) as (cfg & d & Hc & Hd & Ha & Hi & Hl & Hcf & Hm & Hs & Hac).
  unfold data_at, cfg_of. rewrite Hc, Hd, Hac. simpl. done.
Qed.

(** a used reserve was priced with a price at most a day old *)
Definition fresh_price (now : Z) (p : PoolSt) (x : Ext) (a : Addr) : Prop :=
  exists v t, o_price (x_orc x) !! (pc_oracle (ps_config p), a) = Some (v, t) /\ now <= t + 86400.

Lemma load_price_spec now x ch a v ch' :
  pwf now x ch -> load_price now x ch a = Ok (v, ch') ->
  (exists t, o_price (x_orc x) !! (pc_oracle (ch_cfg ch), a) = Some (v, t) /\ now <= t + 86400) /\
  pwf now x ch' /\ ch_cfg ch' = ch_cfg ch /\ ch_res ch' = ch_res ch /\ ch_store ch' = ch_store ch.
Proof.
  intros W H. unfold load_price in H. destruct (ch_price ch !! a) as [v0|] eqn:E.
  - injection H as <- <-. split; [by apply W|]. done.
  - mon H. destruct (o_price (x_orc x) !! (pc_oracle (ch_cfg ch), a)) as [[v t']|] eqn:Eo; [|discriminate].
    match goal with E : unwrap _ = Ok _ |- _ => injection E as <- end.
    match goal with E : u64 _ = Ok _ |- _ => apply u64_ok in E as [-> _] end. simpl in *.
    assert (now <= t' + 86400) as Ht by lia.
    split; [eauto|]. split; [|done]. destruct W as [W1 W2]. constructor; simpl; [|done].
    intros b w Hb. destruct (decide (b = a)) as [->|Hne]; [rewrite lookup_insert in Hb; injection Hb as <-; eauto|].
    rewrite lookup_insert_ne in Hb by done. by apply W1.
Qed.
Lemma cwf_price now p ch ch' ov :
  ch_cfg ch' = ch_cfg ch -> ch_res ch' = ch_res ch -> ch_store ch' = ch_store ch -> cwf now p ch ov ->
  cwf now p ch' ov /\ flush p ch' ov = flush p ch ov.
Proof.
  intros H1 H2 H3 W. assert (flush p ch' ov = flush p ch ov) as Hf.
  { unfold flush, pend. by rewrite H2, H3. }
  split; [|done]. destruct W as [W1 W2 W3]. constructor; rewrite ?Hf, ?H1, ?H2, ?H3; done.
Qed.

Lemma div_zero_err x z : fdiv_ceil x 0 z = Err Trap \/ exists e, fdiv_ceil x 0 z = Err e.
Proof. right. unfold fdiv_ceil, div_ceil. destruct (i128 (x * z)) as [v|e] eqn:E; simpl; [|eauto]. apply i128_ok in E as [-> _]. simpl. eauto. Qed.

Lemma zero_values now L x a :
  coll_eff1 now L x a 0 = 0 /\ coll_raw1 now L x a 0 = 0 /\ liab_eff1 now L x a 0 = 0 /\ liab_raw1 now L x a 0 = 0.
Proof.
  unfold coll_eff1, coll_raw1, liab_eff1, liab_raw1, b_assets, d_assets, cdiv.
  rewrite !Z.mul_0_l. simpl. rewrite ?Z.mul_0_r. 
  rewrite ?Zdiv_0_l. simpl. rewrite ?Z.mul_0_r, ?Zdiv_0_l. simpl. auto.
Qed.

Lemma health_one_spec now p x pos ov L cb cr lb lr ch cb' cr' lb' lr' ch' i a :
  cwf now p ch ov -> flush p ch ov = L -> cfg_wf p -> pwf now x ch ->
  (forall k i, 0 <= getz (get_k k pos) i) ->
  health_one now p x pos ((cb, cr, lb, lr), ch) (i, a) = Ok ((cb', cr', lb', lr'), ch') ->
  cwf now p ch' ov /\ flush p ch' ov = L /\ pwf now x ch' /\
  cb' = cb + coll_eff1 now L x a (get_coll pos i) /\ cr' = cr + coll_raw1 now L x a (get_coll pos i) /\
  lb' = lb + liab_eff1 now L x a (get_liab pos i) /\ lr' = lr + liab_raw1 now L x a (get_liab pos i) /\
  (get_coll pos i <> 0 \/ get_liab pos i <> 0 -> fresh_price now L x a) /\
  (get_liab pos i <> 0 -> 0 < rc_l_factor (cfg_of L a)).
Proof.
  intros W HL Wc P Hpos H. unfold health_one in H. cbn [fst snd] in H.
  pose proof (Hpos KColl i) as Hb. pose proof (Hpos KLiab i) as Hd. simpl in Hb, Hd.
  change (getz (po_coll pos) i) with (get_coll pos i) in Hb. change (getz (po_liab pos) i) with (get_liab pos i) in Hd.
  destruct (zero_values now L x a) as (Z1 & Z2 & Z3 & Z4).
  destruct ((get_coll pos i =? 0) && (get_liab pos i =? 0)) eqn:Ez.
  { injection H as <- <- <- <- <-. apply andb_true_iff in Ez as [Ez1 Ez2]. apply Z.eqb_eq in Ez1, Ez2.
    rewrite Ez1, Ez2, Z1, Z2, Z3, Z4. do 7 (split; [done || lia|]). split; [intros [Hx|Hx]; by destruct Hx|intros Hx; by destruct Hx]. }
  apply bind_ok in H as ([r ch0] & El & H). apply bind_ok in H as ([z c0] & Ep & H).
  apply load_reserve_sim with (ov := ov) in El as [Hl ->]; [|done].
  assert (ps_config L = ps_config p) as Hcf by (subst L; done).
  assert (ps_rcfg L = ps_rcfg p) as Hrcf by (subst L; done).
  rewrite HL in Hl.
  assert (load_res now (ps_config L) L a = Ok r) as Hl' by (by rewrite Hcf).
  pose proof (data_at_load _ _ _ _ Hl') as (HD & Ha & Hs & Hc & Hlf & _).
  pose proof (load_res_fields _ _ _ _ _ Hl') as (cfg & d0 & Hcfg & _).
  rewrite Ha in Ep.
  pose proof (load_price_spec _ _ _ _ _ _ P Ep) as ((t & Ho & Hft) & P1 & Q1 & Q2 & Q3).
  pose proof (cwf_price _ _ _ _ ov Q1 Q2 Q3 W) as [W1 HL1].
  rewrite (cf_cfg _ _ _ _ W) in Ho. rewrite <- Hcf in Ho.
  assert (price_of L x a = z) as Hpr by (unfold price_of; by rewrite Ho).
  assert (0 < 10 ^ rc_decimals (cfg_of L a)) as Hdec.
  { unfold cfg_of. rewrite Hcfg. simpl. apply Z.pow_pos_nonneg; [lia|].
    rewrite Hrcf in Hcfg. apply (cw_valid _ Wc) in Hcfg. unfold cfg_bounds in Hcfg. lia. }
  assert (0 <= rc_l_factor (cfg_of L a)) as Hlf0.
  { unfold cfg_of. rewrite Hcfg. simpl. rewrite Hrcf in Hcfg. apply (cw_valid _ Wc) in Hcfg. unfold cfg_bounds in Hcfg. lia. }
  apply bind_ok in H as ([cb1 cr1] & Ec & H). apply bind_ok in H as ([lb1 lr1] & Ed & H).
  rewrite <- Hpr in Ec, Ed.
  injection H as <- <- <- <- <-.
  assert (cb1 = cb + coll_eff1 now L x a (get_coll pos i) /\ cr1 = cr + coll_raw1 now L x a (get_coll pos i)) as [-> ->].
  { destruct (0 <? get_coll pos i) eqn:Eb.
    - mon Ec. unfold eff_asset_from_b, asset_from_b in *.
      repeat match goal with E : bind _ _ = Ok _ |- _ => mon E end.
      repeat match goal with E : i128 _ = Ok _ |- _ => apply i128_ok in E as [-> _] end.
      repeat match goal with E : fmul_floor _ _ _ = Ok _ |- _ => apply fmul_floor_ok in E as [-> _]; [|vals; rewrite ?Hs; lia] end.
      unfold coll_eff1, coll_raw1, b_assets. rewrite HD, <- Hs, <- Hc. vals. done.
    - mon Ec. assert (get_coll pos i = 0) as -> by lia. rewrite Z1, Z2. lia. }
  assert (lb1 = lb + liab_eff1 now L x a (get_liab pos i) /\ lr1 = lr + liab_raw1 now L x a (get_liab pos i) /\ (get_liab pos i <> 0 -> 0 < rc_l_factor (cfg_of L a))) as (-> & -> & Hlf1).
  { destruct (0 <? get_liab pos i) eqn:Eb.
    - mon Ed. unfold eff_asset_from_d, asset_from_d in *.
      repeat match goal with E : bind _ _ = Ok _ |- _ => mon E end.
      assert (0 < r_l_factor r) as Hlp.
      { destruct (Z.eq_dec (r_l_factor r) 0) as [Hz|]; [|lia].
        match goal with E : fdiv_ceil _ _ _ = Ok _ |- _ => rewrite Hz in E end.
        exfalso. match goal with E : fdiv_ceil ?u 0 ?v = Ok _ |- _ => destruct (div_zero_err u v) as [Hx|[? Hx]]; congruence end. }
      repeat match goal with E : i128 _ = Ok _ |- _ => apply i128_ok in E as [-> _] end.
      repeat match goal with E : fmul_ceil _ _ _ = Ok _ |- _ => apply fmul_ceil_ok in E as [-> _]; [|vals; rewrite ?Hs; lia] end.
      repeat match goal with E : fdiv_ceil _ _ _ = Ok _ |- _ => apply fdiv_ceil_ok in E as [-> _]; [|done] end.
      unfold liab_eff1, liab_raw1, d_assets. rewrite HD, <- Hs, <- Hlf. vals. done.
    - mon Ed. assert (get_liab pos i = 0) as -> by lia. rewrite Z3, Z4. split; [lia|]. split; [lia|done]. }
  assert (load_res now (ps_config p) (flush p c0 ov) a = Ok r) as Hl2 by (rewrite HL1, HL; by rewrite <- Hcf).
  destruct (cache_nostore_sim _ _ _ _ _ _ W1 Hl2) as [W2 HL2].
  split; [done|]. split; [by rewrite HL2, HL1|]. split; [by eapply pwf_same; [|exact P1]|].
  repeat (split; [done|]). split; [|done]. intros _. exists z, t. done.
Qed.

Lemma health_fold now p x pos ov L l : forall cb cr lb lr ch cb' cr' lb' lr' ch',
  cwf now p ch ov -> flush p ch ov = L -> cfg_wf p -> pwf now x ch -> (forall k i, 0 <= getz (get_k k pos) i) ->
  foldM (health_one now p x pos) ((cb, cr, lb, lr), ch) l = Ok ((cb', cr', lb', lr'), ch') ->
  cwf now p ch' ov /\ flush p ch' ov = L /\ pwf now x ch' /\
  cb' = cb + sumz (fun ia => coll_eff1 now L x (snd ia) (get_coll pos (fst ia))) l /\
  cr' = cr + sumz (fun ia => coll_raw1 now L x (snd ia) (get_coll pos (fst ia))) l /\
  lb' = lb + sumz (fun ia => liab_eff1 now L x (snd ia) (get_liab pos (fst ia))) l /\
  lr' = lr + sumz (fun ia => liab_raw1 now L x (snd ia) (get_liab pos (fst ia))) l /\
  (forall i a, (i, a) ∈ l -> get_coll pos i <> 0 \/ get_liab pos i <> 0 -> fresh_price now L x a) /\
  (forall i a, (i, a) ∈ l -> get_liab pos i <> 0 -> 0 < rc_l_factor (cfg_of L a)).
Proof.
  induction l as [|[i a] l IH]; intros cb cr lb lr ch cb' cr' lb' lr' ch' W HL Wc P Hpos H.
  - injection H as <- <- <- <- <-. split; [done|]. split; [done|]. split; [done|]. simpl.
    do 4 (split; [lia|]). split; intros ? ? Hx; by apply elem_of_nil in Hx.
  - cbn [foldM] in H. apply bind_ok in H as ([[[[cb1 cr1] lb1] lr1] ch1] & E & H).
    eapply health_one_spec in E as (W1 & HL1 & P1 & S1 & S2 & S3 & S4 & Hf1 & Hf2); [|exact W|exact HL|done|done|done].
    eapply IH in H as (W2 & HL2 & P2 & -> & -> & -> & -> & Hg1 & Hg2); [|exact W1|exact HL1|done|done|done].
    split; [done|]. split; [done|]. split; [done|]. simpl. do 4 (split; [lia|]).
    split; intros i' a' Hin; apply elem_of_cons in Hin as [[= -> ->]|Hin]; eauto.
Qed.

(** what [calculate_from_positions] computes *)
Lemma position_data_spec now p x ch pos ov L d ch' :
  cwf now p ch ov -> flush p ch ov = L -> cfg_wf p -> pwf now x ch -> (forall k i, 0 <= getz (get_k k pos) i) ->
  position_data now p x ch pos = Ok (d, ch') ->
  cwf now p ch' ov /\ flush p ch' ov = L /\ pwf now x ch' /\
  hd_coll_base d = eff_coll now L x pos /\ hd_coll_raw d = raw_coll now L x pos /\
  hd_liab_base d = eff_liab now L x pos /\ hd_liab_raw d = raw_liab now L x pos /\
  (exists dec, o_dec (x_orc x) !! pc_oracle (ps_config p) = Some dec /\ hd_scalar d = 10 ^ dec) /\
  (forall i a, ps_list p !! i = Some a -> get_coll pos (Z.of_nat i) <> 0 \/ get_liab pos (Z.of_nat i) <> 0 -> fresh_price now L x a) /\
  (forall i a, ps_list p !! i = Some a -> get_liab pos (Z.of_nat i) <> 0 -> 0 < rc_l_factor (cfg_of L a)).
Proof.
  intros W HL Wc P Hpos H. unfold position_data in H.
  apply bind_ok in H as ([dec ch1] & E1 & H). apply bind_ok in H as (sc & E2 & H).
  apply bind_ok in H as ([[[[cb cr] lb] lr] ch2] & E3 & H). injection H as <- <-.
  assert (o_dec (x_orc x) !! pc_oracle (ch_cfg ch) = Some dec /\ ch_cfg ch1 = ch_cfg ch /\ ch_res ch1 = ch_res ch /\ ch_store ch1 = ch_store ch /\ pwf now x ch1) as (Hdec & Q1 & Q2 & Q3 & P1).
  { unfold load_dec in E1. destruct (ch_dec ch) as [d0|] eqn:Ed.
    - injection E1 as <- <-. split; [by apply P|]. done.
    - mon E1. destruct (o_dec (x_orc x) !! pc_oracle (ch_cfg ch)) as [d0|] eqn:Eo; [|discriminate].
      match goal with E : unwrap _ = Ok _ |- _ => injection E as -> end. repeat (split; [done|]).
      destruct P as [P1 P2]. constructor; simpl; [done|]. by intros ? [= <-]. }
  pose proof (cwf_price _ _ _ _ ov Q1 Q2 Q3 W) as [W1 HL1].
  eapply health_fold in E3 as (W2 & HL2 & P2 & -> & -> & -> & -> & Hf1 & Hf2); [|exact W1|by rewrite HL1|done|done|done].
  assert (ps_list L = ps_list p) as Hli by (by subst L).
  assert (forall l (j : nat) (b : Addr) (k : Z), l !! j = Some b -> (k + Z.of_nat j, b) ∈ indexed k l) as Hidx.
  { induction l as [|b0 l IH]; intros [|j] b k Hj; simpl in *; try discriminate.
    - injection Hj as ->. rewrite Z.add_0_r. left.
    - right. replace (k + Z.of_nat (S j)) with (k + 1 + Z.of_nat j) by lia. by apply IH. }
  split; [done|]. split; [done|]. split; [done|]. simpl. unfold eff_coll, raw_coll, eff_liab, raw_liab, over_reserves. rewrite Hli.
  repeat (split; [done|]). split.
  { exists dec. rewrite (cf_cfg _ _ _ _ W) in Hdec. split; [done|]. unfold pow10 in E2. by apply i128_ok in E2 as [-> _]. }
  split; intros i a Hi; [eapply Hf1|eapply Hf2]; apply (Hidx _ _ _ 0 Hi).
Qed.

(** ** Submit as a whole *)
Definition touch (p : PoolSt) (u : Addr) : PoolSt := p <| ps_pos := <[u := get_pos p u]> (ps_pos p) |>.

Lemma flush_fresh p ov : flush p (pool_load p) ov = p <| ps_pos := ov ∪ ps_pos p |>.
Proof.
  unfold flush, pend. simpl. rewrite map_filter_empty, fmap_empty, (left_id_L ∅ (∪)). by destruct p.
Qed.
Lemma touch_flush p u : flush p (pool_load p) {[u := get_pos p u]} = touch p u.
Proof. rewrite flush_fresh. unfold touch. by rewrite insert_union_singleton_l. Qed.
Lemma touch_good p u : good p -> good (touch p u).
Proof. intros G. eapply (pmove_good 0); [exact G|]. apply pm_touch. Qed.

(** healthy: effective collateral over effective liabilities, in oracle precision and
    rounded down, is at least [min] (7 decimals) *)
Definition hf_at_least (now : Z) (p : PoolSt) (x : Ext) (pos : Positions) (min : Z) : Prop :=
  exists dec, o_dec (x_orc x) !! pc_oracle (ps_config p) = Some dec /\
    (eff_liab now p x pos = 0 \/
     exists h, fdiv_floor (eff_coll now p x pos) (eff_liab now p x pos) (10 ^ dec) = Ok h /\
       10 ^ dec * min / 10000000 <= h).

Lemma under_spec d min b : is_hf_under d min = Ok b ->
  b = true \/ hd_liab_base d = 0 \/ exists h, fdiv_floor (hd_coll_base d) (hd_liab_base d) (hd_scalar d) = Ok h /\ hd_scalar d * min / 10000000 <= h.
Proof.
  unfold is_hf_under. destruct (hd_liab_base d =? 0) eqn:E; [right; left; lia|].
  intros H. apply bind_ok in H as (m & E1 & H). apply bind_ok in H as (h & E2 & H). injection H as <-.
  destruct (h <? m) eqn:Eh; [by left|]. right. right. unfold as_hf in E2. exists h. split; [done|].
  apply fmul_floor_ok in E1 as [-> _]; [|vals; lia]. vals. lia.
Qed.

Lemma flush_wf p ch ov : good (flush p ch ov) -> cfg_wf p.
Proof. intros G. eapply wf_same_cfg; [apply (gd_cfg _ G)|apply (gd_init _ G)|]. unfold same_cfg; simpl. tauto. Qed.

Lemma submit_sim c self px from spender to qs pos px' :
  good (px_p px) -> p_submit c self px from spender to qs = Ok (pos, px') ->
  let p := px_p px in let p' := px_p px' in
  need_auth c spender = Ok tt /\ (from = spender \/ need_auth c from = Ok tt) /\
  from <> self /\ spender <> self /\ to <> self /\
  exists ls x1 ac chk t1 t2,
    areqs c self from (mkAS (touch p from) (px_x px) no_actions false) qs ls (mkAS p' x1 ac chk) /\
    transfer_all c spender self (x_tok x1) (ac_spender ac) = Ok t1 /\
    transfer_all (as_contract c self) self to t1 (ac_pool ac) = Ok t2 /\
    px_x px' = x1 <| x_tok := t2 |> /\ pos = get_pos p' from /\
    (eff_count pos <= eff_count (get_pos p from) \/ eff_count pos <= pc_max_positions (ps_config p)) /\
    (chk = true -> po_liab pos <> ∅ ->
       hf_at_least (c_now c) p' x1 pos 10000100 /\
       (forall i a, ps_list p' !! i = Some a -> get_coll pos (Z.of_nat i) <> 0 \/ get_liab pos (Z.of_nat i) <> 0 ->
          fresh_price (c_now c) p' x1 a) /\
       (forall i a, ps_list p' !! i = Some a -> get_liab pos (Z.of_nat i) <> 0 -> 0 < rc_l_factor (cfg_of p' a))).
Proof.
  intros G H. cbv zeta. unfold p_submit in H.
  apply bind_ok in H as ([] & Eau & H). apply bind_ok in H as (u1 & Ea2 & H).
  apply assert_ok in H as [Gn H].
  apply bind_ok in H as (s & Eb & H). apply bind_ok in H as (ch & Ehf & H).
  apply bind_ok in H as (t1 & Et1 & H). apply bind_ok in H as (p2 & Est & H). apply bind_ok in H as (t2 & Et2 & H).
  injection H as <- <-. cbn [px_p px_x].
  split; [done|]. split. { destruct (from =? spender) eqn:Ef; [left; lia|right; by destruct u1]. }
  assert (from <> self /\ spender <> self /\ to <> self) as (N1 & N2 & N3).
  { apply negb_true_iff, orb_false_iff in Gn as [Gn ?]. apply orb_false_iff in Gn as [? ?]. lia. }
  do 3 (split; [done|]).
  unfold build_actions in Eb. apply bind_ok in Eb as (s0 & Efo & Eb). apply bind_ok in Eb as (u2 & Emax & Eb). injection Eb as <-.
  pose proof (do_requests_pr _ _ _ _ _ _ Efo) as Hpr. cbn [lo_ch] in Hpr.
  apply do_requests_sim in Efo as (W & G1 & ls & Hq); cbn [lo_p lo_ch lo_pos].
  2:{ apply pool_load_cwf. }
  2:{ rewrite touch_flush. by apply touch_good. }
  unfold abs at 1 in Hq. cbn [lo_p lo_ch lo_pos lo_x lo_ac lo_check] in Hq. rewrite touch_flush in Hq.
  pose proof (areqs_trace _ _ _ _ _ _ _ Hq) as T. cbn [as_p abs] in T.
  pose proof (ptrace_cfg _ _ _ _ T) as Hcfg. destruct Hcfg as (_ & _ & _ & _ & Hconf & _). simpl in Hconf.
  assert (pwf (c_now c) (lo_x s0) (lo_ch s0)) as P by (eapply pwf_same; [exact Hpr|apply pool_load_pwf]).
  assert (cwf (c_now c) (lo_p s0) ch {[from := lo_pos s0]} /\ flush (lo_p s0) ch {[from := lo_pos s0]} = flush (lo_p s0) (lo_ch s0) {[from := lo_pos s0]} /\
    (lo_check s0 = true -> po_liab (lo_pos s0) <> ∅ ->
     hf_at_least (c_now c) (flush (lo_p s0) (lo_ch s0) {[from := lo_pos s0]}) (lo_x s0) (lo_pos s0) 10000100 /\
       (forall i a, ps_list (lo_p s0) !! i = Some a -> get_coll (lo_pos s0) (Z.of_nat i) <> 0 \/ get_liab (lo_pos s0) (Z.of_nat i) <> 0 ->
          fresh_price (c_now c) (flush (lo_p s0) (lo_ch s0) {[from := lo_pos s0]}) (lo_x s0) a) /\
       (forall i a, ps_list (lo_p s0) !! i = Some a -> get_liab (lo_pos s0) (Z.of_nat i) <> 0 ->
          0 < rc_l_factor (cfg_of (flush (lo_p s0) (lo_ch s0) {[from := lo_pos s0]}) a)))) as (W2 & HL2 & Hh).
  { unfold check_hf in Ehf. destruct (lo_check s0 && _) eqn:Echk.
    - apply bind_ok in Ehf as ([d ch1] & Epd & Ehf). apply bind_ok in Ehf as (un & Eun & Ehf).
      apply assert_ok in Ehf as [Gu Ehf]. injection Ehf as <-.
      eapply position_data_spec in Epd as (W2 & HL2 & _ & D1 & _ & D3 & _ & (dec & D5 & D6) & D7 & D8); [|exact W|reflexivity|exact (flush_wf _ _ _ G1)|exact P|].
      + split; [done|]. split; [done|]. intros _ _. split; [|split; [exact D7|exact D8]].
        apply under_spec in Eun. destruct Eun as [->|Hd]; [discriminate|]. exists dec. split; [exact D5|].
        rewrite D1, D3, D6 in Hd. exact Hd.
      + intros k i. pose proof (pos_ok_getz _ from k i (gd_pos _ G1)) as Hp. by rewrite flush_get_pos, lookup_singleton in Hp.
    - injection Ehf as <-. split; [done|]. split; [done|]. intros Hc Hl. rewrite Hc in Echk. simpl in Echk.
      apply negb_false_iff, bool_decide_eq_true in Echk. done. }
  pose proof (store_set_flush _ _ _ _ _ _ W2 Est) as Hp'. rewrite HL2 in Hp'. rewrite Hp'.
  exists ls, (lo_x s0), (lo_ac s0), (lo_check s0), t1, t2.
  split; [exact Hq|]. split; [done|]. split; [done|]. split; [done|].
  split; [by rewrite flush_get_pos, lookup_singleton|].
  split; [|exact Hh].
  unfold require_under_max in Emax. rewrite (cf_cfg _ _ _ _ W) in Emax. simpl in Hconf. rewrite Hconf in Emax.
  destruct (_ && _) eqn:Em in Emax; [discriminate|]. apply andb_false_iff in Em. lia.
Qed.

