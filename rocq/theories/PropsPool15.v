(** * Interest can be computed: C56 *)
From Verif Require Import Base Types Token Emitter Factory Backstop PoolReserve PoolUser PoolHealth
  PoolAuction PoolSubmit PoolEmis PoolAdmin World Facts XMove Spec PoolFrame PoolCfg PoolAccrue PoolTrace PoolInv AuctionFacts
  PoolSim PoolReq PoolHF PoolOps PoolLiq PoolReach PoolTx PoolEmisInv FrameFacts PropsAdmin PropsBackstop5 PropsPool1 PropsPool2 PropsPool3
  PropsPool4 PropsPool5 PropsPool7 PropsPool9 PropsPool10 PoolLive PropsPool13.

(** ** Arithmetic *)
Lemma fmul_ceil_neg x y d : i128_min <= x * y <= 0 -> 0 < d -> exists v, fmul_ceil x y d = Ok v /\ x * y <= v <= 0.
Proof.
  intros H Hd. unfold fmul_ceil. rewrite i128_fits by (unfold i128_max; lia). cbn [bind]. unfold div_ceil.
  rewrite (proj2 (Z.eqb_neq d 0)) by lia. rewrite (proj2 (Z.leb_le (x * y) 0)) by lia. cbn [orb].
  assert (x * y <= Z.quot (x * y) d <= 0) as Hq.
  { rewrite <- (Z.opp_involutive (x * y)), Z.quot_opp_l by lia. rewrite Z.quot_div_nonneg by lia.
    pose proof (Z.div_pos (- (x * y)) d ltac:(lia) Hd). pose proof (Z.div_le_upper_bound (- (x * y)) d (- (x * y)) Hd ltac:(nia)). lia. }
  rewrite i128_fits by (unfold i128_max in *; lia). eauto.
Qed.
Lemma cdiv_upto x y k : 0 < y -> x <= k * y -> cdiv x y <= k.
Proof. intros Hy H. apply cdiv_le_iff; lia. Qed.
Lemma cdiv_at_least x y : 0 < y -> x <= cdiv x y * y.
Proof. intros Hy. pose proof (cdiv_spec x y Hy). lia. Qed.

Lemma cur_rate_total cfg util m : cfg_bounds cfg -> 0 < util <= 20000000 -> 100000000 <= m <= 10000000000 ->
  rc_r_base cfg + rc_r_one cfg + rc_r_two cfg <= u32_max ->
  exists ir, cur_rate cfg util m = Ok ir /\ 0 <= ir <= 133143986145.
Proof.
  intros V Hu Hm Hs. pose proof V as (_ & _ & _ & Ht & Hmu & Hb & H1 & H2 & _). unfold u32_max in *.
  assert (exists ir, cur_rate cfg util m = Ok ir) as [ir E].
  { unfold cur_rate. destruct (Z.leb_spec util (rc_util cfg)) as [L1|L1]; [|destruct (Z.leb_spec util 9500000) as [L2|L2]].
    - rewrite fdiv_ceil_fits by (vals; unfold i128_max; lia). cbn [bind].
      assert (0 <= cdiv (util * SCALAR_7) (rc_util cfg) <= 10000000) as Hus by (split; [apply cdiv_nonneg|apply cdiv_upto]; vals; lia).
      rewrite fmul_ceil_fits' by (vals; unfold i128_max; nia). cbn [bind].
      assert (0 <= cdiv (cdiv (util * SCALAR_7) (rc_util cfg) * rc_r_one cfg) SCALAR_7 <= rc_r_one cfg) as Hc by (split; [apply cdiv_nonneg|apply cdiv_upto]; vals; nia).
      rewrite i128_ok_nonneg by (unfold i128_max; lia). cbn [bind].
      rewrite fmul_ceil_fits' by (vals; unfold i128_max; nia). eauto.
    - rewrite fdiv_ceil_fits by (vals; unfold i128_max; lia). cbn [bind].
      assert (0 <= cdiv ((util - rc_util cfg) * SCALAR_7) (9500000 - rc_util cfg) <= 10000000) as Hus by (split; [apply cdiv_nonneg|apply cdiv_upto]; vals; lia).
      rewrite fmul_ceil_fits' by (vals; unfold i128_max; nia). cbn [bind].
      assert (0 <= cdiv (cdiv ((util - rc_util cfg) * SCALAR_7) (9500000 - rc_util cfg) * rc_r_two cfg) SCALAR_7 <= rc_r_two cfg) as Hc by (split; [apply cdiv_nonneg|apply cdiv_upto]; vals; nia).
      rewrite i128_ok_nonneg by (unfold i128_max; lia). cbn [bind]. rewrite i128_ok_nonneg by (unfold i128_max; lia). cbn [bind].
      rewrite fmul_ceil_fits' by (vals; unfold i128_max; nia). eauto.
    - rewrite fdiv_ceil_fits by (vals; unfold i128_max; lia). cbn [bind].
      assert (0 <= cdiv ((util - 9500000) * SCALAR_7) 500000 <= 210000000) as Hus by (split; [apply cdiv_nonneg|apply cdiv_upto]; vals; lia).
      rewrite fmul_ceil_fits' by (vals; unfold i128_max; nia). cbn [bind].
      assert (0 <= cdiv (cdiv ((util - 9500000) * SCALAR_7) 500000 * rc_r_three cfg) SCALAR_7 <= 90194313195) as Hc by (split; [apply cdiv_nonneg|apply cdiv_upto]; vals; nia).
      unfold u32. rewrite (proj2 (in_u32_iff (rc_r_two cfg + rc_r_one cfg))) by (unfold u32_max; lia). cbn [bind].
      rewrite (proj2 (in_u32_iff (rc_r_two cfg + rc_r_one cfg + rc_r_base cfg))) by (unfold u32_max; lia). cbn [bind].
      rewrite fmul_ceil_fits' by (vals; unfold i128_max; nia). cbn [bind].
      assert (0 <= cdiv (m * (rc_r_two cfg + rc_r_one cfg + rc_r_base cfg)) SCALAR_9 <= 42949672950) as Hd by (split; [apply cdiv_nonneg|apply cdiv_upto]; vals; nia).
      rewrite i128_ok_nonneg by (unfold i128_max; lia). eauto. }
  exists ir. split; [done|]. split; [by eapply (cur_rate_nonneg cfg util m); try lia|].
  apply cur_rate_spec in E; [|done|lia|lia]. destruct E as [[L ->]|[[L ->]|(L1 & L2 & ->)]].
  - apply cdiv_upto; [lia|].
    assert (cdiv (util * 10000000) (rc_util cfg) <= 10000000) by (apply cdiv_upto; lia).
    assert (cdiv (cdiv (util * 10000000) (rc_util cfg) * rc_r_one cfg) 10000000 <= rc_r_one cfg) by (apply cdiv_upto; nia). nia.
  - apply cdiv_upto; [lia|].
    assert (cdiv ((util - rc_util cfg) * 10000000) (9500000 - rc_util cfg) <= 10000000) by (apply cdiv_upto; lia).
    assert (cdiv (cdiv ((util - rc_util cfg) * 10000000) (9500000 - rc_util cfg) * rc_r_two cfg) 10000000 <= rc_r_two cfg) by (apply cdiv_upto; nia). nia.
  - assert (0 <= cdiv ((util - 9500000) * 10000000) 500000 <= 210000000) by (split; [apply cdiv_nonneg|apply cdiv_upto]; lia).
    assert (cdiv (cdiv ((util - 9500000) * 10000000) 500000 * rc_r_three cfg) 10000000 <= 90194313195) by (apply cdiv_upto; nia).
    assert (cdiv (m * (rc_r_two cfg + rc_r_one cfg + rc_r_base cfg)) 1000000000 <= 42949672950) by (apply cdiv_upto; nia). lia.
Qed.

Lemma next_ir_mod_total cfg util m dts : cfg_bounds cfg -> 0 < util <= 20000000 -> 100000000 <= m <= 10000000000 ->
  0 <= dts <= 31536000000000000 -> exists nm, next_ir_mod cfg util m dts = Ok nm.
Proof.
  intros (_ & _ & _ & Ht & _ & _ & _ & _ & Hre) Hu Hm Hd. unfold next_ir_mod.
  rewrite i128_fits by (unfold i128_min, i128_max; lia). cbn [bind].
  set (k := (util - rc_util cfg) * 100). assert (- 950000000 <= k <= 2000000000) as Hk by (unfold k; lia). clearbody k.
  destruct (Z.leb_spec 0 k) as [L|L].
  - rewrite fmul_floor_fits by (vals; unfold i128_max; nia). cbn [bind].
    assert (0 <= dts * k / SCALAR_9 <= 63072000000000000) as He.
    { vals. split; [apply Z.div_pos; nia|apply Z.div_le_upper_bound; nia]. }
    rewrite fmul_floor_fits by (vals; unfold i128_max; nia). cbn [bind].
    assert (0 <= dts * k / SCALAR_9 * rc_reactivity cfg / SCALAR_7 <= 6307200000000) as Hf.
    { split; [apply Z.div_pos; vals; nia|apply Z.div_le_upper_bound; vals; nia]. }
    rewrite i128_ok_nonneg by (unfold i128_max; lia). cbn [bind]. eauto.
  - destruct (fmul_ceil_neg dts k SCALAR_9) as (v & -> & Hv); [unfold i128_min, i128_max; nia|vals; lia|]. cbn [bind].
    destruct (fmul_ceil_neg v (rc_reactivity cfg) SCALAR_7) as (v2 & -> & Hv2); [unfold i128_min, i128_max; nia|vals; lia|]. cbn [bind].
    rewrite i128_fits by (unfold i128_min, i128_max; nia). cbn [bind]. eauto.
Qed.

Lemma calc_accrual_total now cfg util m last : cfg_bounds cfg -> 0 < util <= 20000000 -> 100000000 <= m <= 10000000000 ->
  rc_r_base cfg + rc_r_one cfg + rc_r_two cfg <= u32_max -> last <= now <= last + 31536000 ->
  exists la nm, calc_accrual now cfg util m last = Ok (la, nm) /\ 1000000000 <= la <= 13316000000000.
Proof.
  intros V Hu Hm Hs Ht. unfold calc_accrual. destruct (cur_rate_total cfg util m V Hu Hm Hs) as (ir & -> & Hir). cbn [bind].
  rewrite u64_fits by (unfold u64_max; lia). cbn [bind]. rewrite i128_ok_nonneg by (vals; unfold i128_max; lia). cbn [bind].
  destruct (next_ir_mod_total cfg util m ((now - last) * SCALAR_9) V Hu Hm) as (nm & ->); [vals; lia|]. cbn [bind].
  rewrite i128_ok_nonneg by (unfold i128_max; lia). cbn [bind].
  assert (0 <= Z.quot ((now - last) * SCALAR_9) SECONDS_PER_YEAR <= 1000000000) as Hw.
  { vals. rewrite Z.quot_div_nonneg by lia. split; [apply Z.div_pos; lia|apply Z.div_le_upper_bound; lia]. }
  set (tw := Z.quot _ _) in *. clearbody tw.
  rewrite fmul_ceil_fits' by (vals; unfold i128_max; nia). cbn [bind].
  assert (0 <= cdiv (tw * (ir * 100)) SCALAR_9 <= 13314398614500) as Hg by (split; [apply cdiv_nonneg|apply cdiv_upto]; vals; nia).
  rewrite i128_ok_nonneg by (vals; unfold i128_max; lia). cbn [bind]. eexists _, _. split; [done|]. vals. lia.
Qed.

(** the amounts of a reserve leave room in 128-bit integers for a year of interest at the
    highest rate possible: [15000] bounds the growth of the debt *)
Definition sized (d : ResData) : Prop :=
  rd_d_rate d <= 10 ^ 24 /\ Z.abs (rd_credit d) <= 10 ^ 37 /\
  rd_b_supply d * rd_b_rate d + 15000 * (rd_d_supply d * rd_d_rate d) <= i128_max.

Lemma share_fits a rate : 0 < a -> a * 10000000 <= i128_max -> 0 <= rate < 10000000 ->
  exists nc, (if 0 <? rate then fmul_floor a rate 10000000 else Ok 0) = Ok nc /\ 0 <= nc <= a.
Proof.
  intros Ha Hm Hr. destruct (0 <? rate); [|exists 0; split; [done|lia]]. assert (0 <= a * rate <= a * 10000000) as H by nia.
  rewrite fmul_floor_fits by lia. eexists. split; [done|]. split; [apply Z.div_pos; lia|apply Z.div_le_upper_bound; lia].
Qed.

Lemma accrue_total now rate cfg d : rd_ok d -> cfg_bounds cfg -> 0 <= rate < 10000000 ->
  rc_r_base cfg + rc_r_one cfg + rc_r_two cfg <= u32_max -> rd_last_time d <= now <= rd_last_time d + 31536000 ->
  debt d <= 2 * (claims9 d / 1000000000) -> sized d -> exists d', accrue now rate cfg d = Ok d'.
Proof.
  intros W V Hr Hs Ht Hu (S1 & S2 & S3). destruct W as [W1 W2 W3 W4 W5]. vals.
  set (D := rd_d_supply d) in *. set (B := rd_b_supply d) in *. set (R := rd_d_rate d) in *. set (Q := rd_b_rate d) in *.
  assert (0 <= D * R) as HDR by nia. assert (0 <= B * Q) as HBQ by nia.
  unfold accrue. destruct (now =? rd_last_time d) eqn:E0; [eauto|]. fold B. destruct (Z.eqb_spec B 0) as [|HB]; [eauto|].
  unfold utilization, total_liab, total_supply, asset_from_d, asset_from_b. fold D R B Q.
  rewrite fmul_ceil_fits' by (vals; unfold i128_max in *; lia). cbn [bind].
  rewrite fmul_floor_fits by (vals; lia). cbn [bind]. vals.
  unfold debt, claims9 in Hu. fold D R B Q in Hu.
  pose proof (cdiv_spec (D * R) 1000000000 ltac:(lia)) as Hl. set (l := cdiv (D * R) 1000000000) in *.
  pose proof (fdiv_spec (B * Q) 1000000000 ltac:(lia)) as Hsup. set (s := B * Q / 1000000000) in *.
  assert (1 <= s) as Hs1 by (unfold s; apply Z.div_le_lower_bound; nia). assert (0 <= l) as Hl0 by nia.
  rewrite fdiv_ceil_fits by (unfold i128_max in *; lia). cbn [bind].
  assert (0 <= cdiv (l * 10000000) s <= 20000000) as Hut by (split; [apply cdiv_nonneg|apply cdiv_upto]; nia).
  set (u := cdiv (l * 10000000) s) in *. destruct (Z.eqb_spec u 0) as [|Hu0]; [eauto|].
  assert (0 < D) as HD. { destruct (Z.eq_dec D 0) as [HD0|]; [|lia]. exfalso. apply Hu0. assert (l = 0) as Hl00 by (unfold l; rewrite HD0; reflexivity). unfold u. rewrite Hl00. unfold cdiv. rewrite Z.mul_0_l, Z.div_0_l by lia. done. }
  destruct (calc_accrual_total now cfg u (rd_ir_mod d) (rd_last_time d) V ltac:(lia) W3 Hs Ht) as (la & nm & -> & Hla). cbn [bind].
  rewrite fmul_ceil_fits' by (unfold i128_max; nia). cbn [bind rd_d_supply rd_d_rate rd_credit rd_b_supply set]. cbn.
  fold D R. vals.
  pose proof (cdiv_spec (la * R) 1000000000 ltac:(lia)) as Hn. set (ndr := cdiv (la * R) 1000000000) in *.
  assert (R <= ndr <= 13317 * R) as Hndr by nia.
  assert (D * R <= D * ndr <= 13317 * (D * R)) as HDn by nia.
  assert (1000000000 <= D * R) as Hbig by nia.
  rewrite fmul_ceil_fits' by (unfold i128_max in *; lia). cbn [bind].
  pose proof (cdiv_spec (D * ndr) 1000000000 ltac:(lia)) as Hp. set (pl := cdiv (D * ndr) 1000000000) in *.
  assert (l <= pl) as Hlp by (apply cdiv_mono; lia).
  rewrite i128_ok_nonneg by (unfold i128_max in *; lia). cbn [bind].
  destruct (Z.ltb_spec 0 (pl - l)) as [Hpos|]; [|eauto].
  destruct (share_fits (pl - l) rate Hpos) as (nc & -> & Hnc); [unfold i128_max in *; lia|done|].
  cbn [bind]. rewrite i128_fits by (unfold i128_min, i128_max in *; lia). cbn [bind].
  rewrite i128_ok_nonneg by (unfold i128_max in *; lia). cbn [bind].
  rewrite i128_ok_nonneg by (unfold i128_max in *; lia). cbn [bind].
  fold B. rewrite fdiv_floor_fits by (unfold i128_max in *; lia). cbn [bind]. eauto.
Qed.

(** ** Time never runs backwards *)
Lemma now_mono w o out w' : exec w o = Ok (out, w') -> w_now w <= w_now w'.
Proof.
  destruct o as [sg o|sg b o|sg ad sa orc ra mp|b|dt ds|orc|n|b t u|b r|]; intros H; simpl in H.
  - apply assert_ok in H as [_ H]. apply bind_ok in H as ([? ?] & _ & H). injection H as <- <-. simpl. lia.
  - apply assert_ok in H as [_ H]. apply bind_ok in H as (? & _ & H). apply bind_ok in H as ([? ?] & _ & H). injection H as <- <-. simpl. lia.
  - apply assert_ok in H as [_ H]. apply bind_ok in H as (? & _ & H). destruct (w_pools w !! _); [done|].
    apply bind_ok in H as (? & _ & H). injection H as <- <-. simpl. lia.
  - mon H. destruct (w_pools w !! b); mon H. simpl. lia.
  - mon H. simpl. lia.
  - mon H. simpl. lia.
  - mon H. simpl. lia.
  - mon H. simpl. lia.
  - mon H. simpl. lia.
  - mon H. simpl. lia.
Qed.

(** interest is never accrued beyond the present *)
Lemma last_le w a r d : reachable w -> reserve w a r = Some d -> rd_last_time d <= w_now w.
Proof.
  intros Hr. revert d. revert w Hr. apply (reach_inv' (fun w => forall d, reserve w a r = Some d -> rd_last_time d <= w_now w)).
  - intros w (? & ? & ? & ? & ? & -> & _) d H. unfold reserve, pool in H. simpl in H. rewrite lookup_empty in H. simpl in H. by rewrite lookup_empty in H.
  - intros w o out w' Hr IH E d' Hd'. pose proof (now_mono _ _ _ _ E) as Hm.
    destruct (reserve w a r) as [d|] eqn:Hd.
    + pose proof (init_of_data _ _ _ _ Hr Hd) as G. destruct (proj2 (gd_dom _ G r) (ex_intro _ _ Hd)) as [cfg Hc].
      destruct (step_reserve _ _ _ _ _ _ _ _ Hr E Hc Hd) as (d2 & d0 & Hd2 & Hor & _ & _ & _ & Hl & _).
      rewrite Hd' in Hd2. injection Hd2 as <-. rewrite Hl. destruct Hor as [->|Ha]; [specialize (IH d eq_refl); lia|]. apply accrue_last in Ha. lia.
    + pose proof (reachable_step _ _ _ _ Hr E) as Hr'. pose proof (init_of_data _ _ _ _ Hr' Hd') as G'.
      destruct (proj2 (gd_dom _ G' r) (ex_intro _ _ Hd')) as [cfg Hc'].
      assert (ps_rcfg (pool w a) !! r = None) as Hc.
      { destruct (ps_rcfg (pool w a) !! r) as [c0|] eqn:Hc; [|done]. exfalso. destruct (ps_init (pool w a)) eqn:Hi.
        - destruct (proj1 (gd_dom _ (reachable_good w a Hr Hi) r) (ex_intro _ _ Hc)) as [d Hd2]. unfold reserve in Hd. congruence.
        - rewrite (cw_fresh _ (reachable_cfg_wf _ a Hr) Hi) in Hc. simpl in Hc. by rewrite lookup_empty in Hc. }
      pose proof (exec_pool _ _ _ _ a E) as S.
      destruct (rcfg_step _ _ _ _ _ r S) as (sg & q & i & -> & _). { unfold res_cfg. congruence. }
      inversion S as [? ? ? H Hno|? po ? px ? Hsg Hty Hp H Hw' _ _ | | |]; subst; [by destruct (Hno sg (PSetRes r))|].
      destruct (ps_init (pool w a)) eqn:Hi; swap 1 2.
      { simpl in H. rewrite Hi in H. discriminate. }
      apply p_exec_data in H; [|exact (reachable_good w a Hr Hi)|done]. cbn [px_p] in H. destruct H as [(Hx & _)|[(b & Hb & Hs)|(_ & Hx & _)]]; [done| |by destruct (Hx r)].
      injection Hb as <-. destruct Hs as (cfg' & _ & _ & _ & _ & _ & _ & _ & _ & _ & _ & [(_ & _ & _ & Hrd)|(cfg0 & d0 & d1 & Hc0 & _)]); [|congruence].
      unfold reserve in Hd'. rewrite Hw', Hrd, lookup_insert in Hd'. injection Hd' as <-. simpl. done.
Qed.

(** ** C56 *)
(** utilization of at most 200%; at most a year since the last accrual; 128-bit integers leave
    room for it; the rate parameters add up to at most 2^32 - 1 (about 42949%) *)
Theorem C56_interest_computable : forall w a r cfg d,
  reachable w -> ps_rcfg (pool w a) !! r = Some cfg -> reserve w a r = Some d ->
  rc_r_base cfg + rc_r_one cfg + rc_r_two cfg <= u32_max ->
  debt d <= 2 * (claims9 d / 1000000000) -> w_now w <= rd_last_time d + 31536000 -> sized d ->
  accruable w a r.
Proof.
  intros w a r cfg d Hr Hc Hd Hs Hu Ht Hz. pose proof (init_of_data _ _ _ _ Hr Hd) as G.
  destruct (accrue_total (w_now w) (take_rate w a) cfg d (good_rd _ _ _ G Hd) (cw_valid _ (gd_cfg _ G) _ _ Hc) (cw_rate _ (gd_cfg _ G)) Hs) as [d' E]; try done.
  { split; [by eapply last_le|done]. }
  exists cfg, d, d'. done.
Qed.

(** an accrual above 95% utilization with larger rate parameters fails *)
Lemma accrue_overflow now rate cfg d d' : rd_ok d -> cfg_bounds cfg -> u32_max < rc_r_base cfg + rc_r_one cfg + rc_r_two cfg ->
  0 < rd_b_supply d -> 95 * (claims9 d / 1000000000) < 100 * debt d -> now <> rd_last_time d -> accrue now rate cfg d = Ok d' -> False.
Proof.
  intros W V Ho Hb Hu Hn H. unfold accrue in H. rewrite (proj2 (Z.eqb_neq now _)), (proj2 (Z.eqb_neq (rd_b_supply d) 0)) in H by lia.
  apply bind_ok in H as (u & Eu & H). apply utilization_spec in Eu as (Hu' & Hs & Hu0 & Hd0); [|done|done].
  pose proof (cdiv_spec (debt d * 10000000) (claims9 d / 1000000000) Hs) as Hcs. rewrite <- Hu' in Hcs.
  assert (9500000 < u) as Hu9 by nia.
  rewrite (proj2 (Z.eqb_neq u 0)) in H by lia. apply bind_ok in H as ([la nm] & Ec & _).
  apply calc_accrual_spec in Ec as (ir & Ec & _). destruct V as (_ & _ & _ & Ht & _).
  unfold cur_rate in Ec. rewrite (proj2 (Z.leb_gt u (rc_util cfg))), (proj2 (Z.leb_gt u 9500000)) in Ec by lia.
  mon Ec. repeat match goal with E : u32 _ = Ok _ |- _ => apply u32_ok in E as [-> ?] end. lia.
Qed.

Lemma moved_last now rate cfg d d' s : rd_last_time d = now -> moved now rate cfg d d' s -> rd_last_time d' = now.
Proof. intros H (d0 & [->|Ha] & _ & _ & _ & Hl & _); [congruence|]. apply accrue_last in Ha. congruence. Qed.

(** a submit with a request on reserve [r] brings its interest up to date *)
Lemma submit_accrues w sg a from spender to qs out w' q : reachable w ->
  exec w (OPool sg a (PSubmit from spender to qs)) = Ok (out, w') -> q ∈ qs -> plain q ->
  exists d', reserve w' a (rq_addr q) = Some d' /\ rd_last_time d' = w_now w.
Proof.
  intros Hr H Hq Hp. apply submit_tx in H as (G & G' & Hcfg & _ & _ & _ & Hsa & Hta & _ & ls & x1 & ac & chk & t1 & t2 & pos & _ & _ & Hqs & _); [|done].
  apply elem_of_list_split in Hq as (qs1 & qs2 & ->).
  apply areqs_app in Hqs as (s1 & l1 & l2 & H1 & H2 & ->).
  inversion H2 as [|? ? ? l0 s0 l0' ? Ha Hal Hq Hqs]; subst. unfold plain in Hp.
  inversion Hq as [L x ac0 chk0 cfg d L1 L2 d2 dl pin pout ac' Hty Hc M1 Hd1 Hfl M2 Hd2|? ? ? ? ? ? ? ? Ht'|? ? ? ? ? ? ? ? ? ? ? ? ? ? Ht'|? ? ? ? ? ? ? ? ? ? ? ? Ht'|? ? ? ? ? Ht']; subst; try lia.
  assert (rd_last_time d = w_now w) as Hl.
  { inversion M1; subst. simpl in Hd1. rewrite lookup_insert in Hd1. injection Hd1 as <-. by eapply accrue_last. }
  assert (ps_rcfg L1 !! rq_addr q = Some cfg) as Hc1.
  { pose proof (ptrace_cfg _ _ _ _ (ptrace_one _ _ _ _ M1)) as (_ & _ & _ & _ & _ & _ & E2 & _). by rewrite E2. }
  pose proof (ptrace_app _ _ _ _ _ _ (ptrace_one _ _ _ _ M2) (areqs_trace _ _ _ _ _ _ _ Hqs)) as T. cbn [as_p] in T.
  destruct (trace_moved _ _ _ _ _ _ _ T Hc1 Hd1) as (d' & Hd' & Hm). exists d'. split; [exact Hd'|]. by eapply moved_last.
Qed.

(** the restriction on the rate parameters is needed: with larger ones, once utilization is above
    95% and time has passed, the reserve is locked for ever - whatever happens later, its
    data and configuration never change and nobody can supply, withdraw, borrow or repay *)
Theorem C56_overflow_locks : forall w a r cfg d l,
  reachable w -> ps_rcfg (pool w a) !! r = Some cfg -> reserve w a r = Some d ->
  u32_max < rc_r_base cfg + rc_r_one cfg + rc_r_two cfg ->
  0 < rd_b_supply d -> 95 * (claims9 d / 1000000000) < 100 * debt d -> rd_last_time d < w_now w ->
  let w' := run w l in
  reserve w' a r = Some d /\ ps_rcfg (pool w' a) !! r = Some cfg /\
  forall sg from spender to qs q, q ∈ qs -> plain q -> rq_addr q = r -> ~ succeeds w' (OPool sg a (PSubmit from spender to qs)).
Proof.
  intros w a r cfg d l Hr Hc Hd Ho Hb Hu Ht.
  pose proof (init_of_data _ _ _ _ Hr Hd) as G. pose proof (good_rd _ _ _ G Hd) as W. pose proof (cw_valid _ (gd_cfg _ G) _ _ Hc) as V.
  assert (forall w1 o out w2, reachable w1 -> ps_rcfg (pool w1 a) !! r = Some cfg -> reserve w1 a r = Some d -> rd_last_time d < w_now w1 ->
    exec w1 o = Ok (out, w2) -> ps_rcfg (pool w2 a) !! r = Some cfg /\ reserve w2 a r = Some d /\ rd_last_time d < w_now w2) as Hstep.
  { intros w1 o out w2 Hr1 Hc1 Hd1 Ht1 E. pose proof (now_mono _ _ _ _ E).
    destruct (step_reserve _ _ _ _ _ _ _ _ Hr1 E Hc1 Hd1) as (d2 & d0 & Hd2 & Hor & _ & _ & _ & Hl & _ & Hsame).
    assert (d0 = d) as ->. { destruct Hor as [->|Ha]; [done|]. exfalso. eapply (accrue_overflow (w_now w1)); eauto. lia. }
    rewrite Hsame in Hd2 by lia. split; [|split; [done|lia]].
    destruct (decide (res_cfg w2 a r = res_cfg w1 a r)) as [He|He]; [unfold res_cfg in He; congruence|exfalso].
    pose proof (exec_pool _ _ _ _ a E) as S. destruct (rcfg_step _ _ _ _ _ r S He) as (sg & q & i & -> & _).
    inversion S as [? ? ? H1 Hno|? po ? px ? Hsg Hty Hp H1 Hw' _ _ | | |]; subst; [by destruct (Hno sg (PSetRes r))|].
    pose proof (init_of_data _ _ _ _ Hr1 Hd1) as G1.
    apply p_exec_data in H1; [|exact G1|done]. cbn [px_p] in H1. destruct H1 as [(Hx & _)|[(b & Hb' & Hs)|(_ & Hx & _)]]; [done| |by destruct (Hx r)].
    injection Hb' as <-. destruct Hs as (cfg' & _ & _ & _ & _ & _ & _ & _ & _ & _ & _ & [(Hcn & _)|(cfg0 & d0 & d1 & Hc0 & Hd0 & _ & _ & _ & Ha & _)]); [congruence|].
    unfold reserve in Hd1. assert (d0 = d) by congruence. assert (cfg0 = cfg) by congruence. subst d0 cfg0.
    eapply (accrue_overflow (w_now w1)); eauto. lia. }
  assert (reachable (run w l) /\ ps_rcfg (pool (run w l) a) !! r = Some cfg /\ reserve (run w l) a r = Some d /\ rd_last_time d < w_now (run w l)) as (Hr' & Hc' & Hd' & Ht').
  { clear - Hr Hc Hd Ht Hstep. revert w Hr Hc Hd Ht. induction l as [|o l IH]; intros w Hr Hc Hd Ht; [done|]. simpl. unfold step.
    destruct (exec w o) as [[out w2]|] eqn:E; [|by apply IH]. destruct (Hstep _ _ _ _ Hr Hc Hd Ht E) as (? & ? & ?). apply IH; try done. by eapply reachable_step. }
  cbv zeta. split; [done|]. split; [done|]. intros sg from spender to qs q Hq Hp Hqr (out & w2 & E).
  destruct (submit_accrues _ _ _ _ _ _ _ _ _ _ Hr' E Hq Hp) as (d2 & Hd2 & Hl). rewrite Hqr in Hd2.
  destruct (Hstep _ _ _ _ Hr' Hc' Hd' Ht' E) as (_ & Hd3 & _). assert (d2 = d) by congruence. subst d2. lia.
Qed.
