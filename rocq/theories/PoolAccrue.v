(** * Interest: what one accrual does to a reserve *)
From Verif Require Import Base Types PoolReserve PoolAdmin PoolCfg Facts.

(** the well-formedness of a reserve's data that accrual preserves *)
Record rd_ok (d : ResData) : Prop := {
  ro_d : SCALAR_9 <= rd_d_rate d;
  ro_b : SCALAR_9 <= rd_b_rate d;
  ro_ir : 100000000 <= rd_ir_mod d <= 10000000000;
  ro_bs : 0 <= rd_b_supply d;
  ro_ds : 0 <= rd_d_supply d
}.

(** debt of a reserve in units of the asset, rounded up; supplier claims in units
    of 1e-9 of the asset, exact *)
Definition debt (d : ResData) : Z := cdiv (rd_d_supply d * rd_d_rate d) 1000000000.
Definition claims9 (d : ResData) : Z := rd_b_supply d * rd_b_rate d.
(** the debt that an accrual adds *)
Definition accrued (d d' : ResData) : Z := debt d' - debt d.

Lemma fdiv_ceil_nonneg x y d v : 0 <= x -> 0 < y -> 0 <= d -> fdiv_ceil x y d = Ok v -> 0 <= v.
Proof. intros Hx Hy Hd H. apply fdiv_ceil_ok in H as [-> _]; [|done]. apply cdiv_nonneg; nia. Qed.
Lemma fmul_ceil_nonneg x y d v : 0 <= x -> 0 <= y -> 0 < d -> fmul_ceil x y d = Ok v -> 0 <= v.
Proof. intros Hx Hy Hd H. apply fmul_ceil_ok in H as [-> _]; [|done]. apply cdiv_nonneg; nia. Qed.

(** the three legs of the curve: exact values *)
Lemma cur_rate_spec cfg util m r :
  cfg_bounds cfg -> 0 < util -> 0 <= m -> cur_rate cfg util m = Ok r ->
  (util <= rc_util cfg /\
     r = cdiv ((cdiv (cdiv (util * 10000000) (rc_util cfg) * rc_r_one cfg) 10000000 + rc_r_base cfg) * m) 1000000000) \/
  (rc_util cfg < util <= 9500000 /\
     r = cdiv ((cdiv (cdiv ((util - rc_util cfg) * 10000000) (9500000 - rc_util cfg) * rc_r_two cfg) 10000000
               + rc_r_one cfg + rc_r_base cfg) * m) 1000000000) \/
  (9500000 < util /\ rc_util cfg < util /\
     r = cdiv (cdiv ((util - 9500000) * 10000000) 500000 * rc_r_three cfg) 10000000
       + cdiv (m * (rc_r_two cfg + rc_r_one cfg + rc_r_base cfg)) 1000000000).
Proof.
  intros (_ & _ & _ & Hu & Hmu & Hb & H1 & H2 & _) Hut Hm H. unfold cur_rate in H.
  destruct (util <=? rc_util cfg) eqn:E1; [left|destruct (util <=? 9500000) eqn:E2; [right; left|right; right]].
  - split; [lia|]. mon H. apply fdiv_ceil_ok in E as [-> _]; [|lia]. apply fmul_ceil_ok in E0 as [-> _]; [|vals; lia].
    apply i128_ok in E2 as [-> _]. apply fmul_ceil_ok in H as [-> _]; [|vals; lia]. done.
  - split; [lia|]. mon H. apply fdiv_ceil_ok in E as [-> _]; [|lia]. apply fmul_ceil_ok in E0 as [-> _]; [|vals; lia].
    apply i128_ok in E3 as [-> _]. apply i128_ok in E4 as [-> _]. apply fmul_ceil_ok in H as [-> _]; [|vals; lia]. done.
  - split; [lia|]. split; [lia|]. mon H. apply fdiv_ceil_ok in E as [-> _]; [|lia]. apply fmul_ceil_ok in E0 as [-> _]; [|vals; lia].
    apply u32_ok in E3 as [-> _]. apply u32_ok in E4 as [-> _]. apply fmul_ceil_ok in E5 as [-> _]; [|vals; lia].
    apply i128_ok in H as [-> _]. done.
Qed.

Lemma cur_rate_nonneg cfg util m r :
  cfg_bounds cfg -> 0 < util -> 0 <= m -> cur_rate cfg util m = Ok r -> 0 <= r.
Proof.
  intros Hc Hu Hm H. apply cur_rate_spec in H; try done. destruct Hc as (_ & _ & _ & Hu' & Hmu & Hb & H1 & H2 & _).
  destruct H as [[H ->] | [[H ->] | (H & ? & ->)]].
  - apply cdiv_nonneg; [lia|]. apply Z.mul_nonneg_nonneg; [|done].
    pose proof (cdiv_nonneg (util * 10000000) (rc_util cfg) ltac:(lia) ltac:(lia)).
    pose proof (cdiv_nonneg (cdiv (util * 10000000) (rc_util cfg) * rc_r_one cfg) 10000000 ltac:(lia) ltac:(nia)). lia.
  - apply cdiv_nonneg; [lia|]. apply Z.mul_nonneg_nonneg; [|done].
    pose proof (cdiv_nonneg ((util - rc_util cfg) * 10000000) (9500000 - rc_util cfg) ltac:(lia) ltac:(lia)).
    pose proof (cdiv_nonneg (cdiv ((util - rc_util cfg) * 10000000) (9500000 - rc_util cfg) * rc_r_two cfg) 10000000 ltac:(lia) ltac:(nia)). lia.
  - pose proof (cdiv_nonneg ((util - 9500000) * 10000000) 500000 ltac:(lia) ltac:(lia)).
    pose proof (cdiv_nonneg (cdiv ((util - 9500000) * 10000000) 500000 * rc_r_three cfg) 10000000 ltac:(lia) ltac:(nia)).
    pose proof (cdiv_nonneg (m * (rc_r_two cfg + rc_r_one cfg + rc_r_base cfg)) 1000000000 ltac:(lia) ltac:(nia)). lia.
Qed.

Lemma cur_rate_mono cfg u1 u2 m r1 r2 :
  cfg_bounds cfg -> 0 < u1 <= u2 -> 0 <= m ->
  cur_rate cfg u1 m = Ok r1 -> cur_rate cfg u2 m = Ok r2 -> r1 <= r2.
Proof.
  intros Hc Hu Hm E1 E2. apply cur_rate_spec in E1, E2; try done; try lia.
  destruct Hc as (_ & _ & _ & Hu' & Hmu & Hb & H1 & H2 & _).
  set (t := rc_util cfg) in *. set (a := rc_r_one cfg) in *. set (b := rc_r_two cfg) in *. set (c := rc_r_three cfg) in *. set (z := rc_r_base cfg) in *.
  assert (forall x y, x <= y -> cdiv (x * m) 1000000000 <= cdiv (y * m) 1000000000) as Hcm
    by (intros; apply cdiv_mono; [lia|nia]).
  assert (forall u r, 0 < u <= t -> 0 <= r -> cdiv (cdiv (u * 10000000) t * r) 10000000 <= r) as L1.
  { intros u r Hut Hr. apply cdiv_le_iff; [lia|].
    assert (cdiv (u * 10000000) t <= 10000000) by (apply cdiv_le_iff; nia). nia. }
  assert (forall u, t < u <= 9500000 -> 0 <= cdiv (cdiv ((u - t) * 10000000) (9500000 - t) * b) 10000000 <= b) as L2.
  { intros u Hut. assert (0 <= cdiv ((u - t) * 10000000) (9500000 - t) <= 10000000).
    { split; [apply cdiv_nonneg; lia|]. apply cdiv_le_iff; nia. }
    split; [apply cdiv_nonneg; nia|]. apply cdiv_le_iff; nia. }
  assert (forall u, 9500000 < u -> 0 <= cdiv (cdiv ((u - 9500000) * 10000000) 500000 * c) 10000000) as L3.
  { intros u Hut. apply cdiv_nonneg; [lia|]. pose proof (cdiv_nonneg ((u - 9500000) * 10000000) 500000 ltac:(lia) ltac:(lia)). nia. }
  assert (forall x, m * x = x * m) as Hcomm by (intros; lia).
  destruct E1 as [[G1 ->] | [[G1 ->] | (G1 & G1' & ->)]]; destruct E2 as [[G2 ->] | [[G2 ->] | (G2 & G2' & ->)]]; try lia.
  - apply Hcm. apply Zplus_le_compat_r. apply cdiv_mono; [lia|].
    assert (cdiv (u1 * 10000000) t <= cdiv (u2 * 10000000) t) by (apply cdiv_mono; lia). nia.
  - apply Hcm. specialize (L1 u1 a ltac:(lia) ltac:(lia)). specialize (L2 u2 G2). lia.
  - specialize (L3 u2 G2). rewrite Hcomm. specialize (L1 u1 a ltac:(lia) ltac:(lia)).
    pose proof (Hcm (cdiv (cdiv (u1 * 10000000) t * a) 10000000 + z) (b + a + z) ltac:(lia)). lia.
  - apply Hcm. do 2 apply Zplus_le_compat_r. apply cdiv_mono; [lia|].
    assert (cdiv ((u1 - t) * 10000000) (9500000 - t) <= cdiv ((u2 - t) * 10000000) (9500000 - t)) by (apply cdiv_mono; lia). nia.
  - specialize (L3 u2 G2). specialize (L2 u1 G1). rewrite Hcomm.
    pose proof (Hcm (cdiv (cdiv ((u1 - t) * 10000000) (9500000 - t) * b) 10000000 + a + z) (b + a + z) ltac:(lia)). lia.
  - apply Zplus_le_compat_r. apply cdiv_mono; [lia|].
    assert (cdiv ((u1 - 9500000) * 10000000) 500000 <= cdiv ((u2 - 9500000) * 10000000) 500000) by (apply cdiv_mono; lia). nia.
Qed.

(** the modifier *)
Lemma next_ir_mod_spec cfg util m dts nm :
  cfg_bounds cfg -> 0 <= dts -> next_ir_mod cfg util m dts = Ok nm ->
  (rc_util cfg <= util /\
     nm = Z.min 10000000000 (m + dts * ((util - rc_util cfg) * 100) / 1000000000 * rc_reactivity cfg / 10000000)) \/
  (util < rc_util cfg /\
     nm = Z.max 100000000 (m + cdiv (cdiv (dts * ((util - rc_util cfg) * 100)) 1000000000 * rc_reactivity cfg) 10000000)).
Proof.
  intros Hc Hd H. unfold next_ir_mod in H. mon H. apply i128_ok in E as [-> _].
  destruct (0 <=? _) eqn:Es; [left|right]; (split; [lia|]); mon H.
  - apply fmul_floor_ok in E as [-> _]; [|vals; lia]. apply fmul_floor_ok in E0 as [-> _]; [|vals; lia].
    apply i128_ok in E1 as [-> _]. vals. destruct (_ <? _) eqn:?; lia.
  - apply fmul_ceil_ok in E as [-> _]; [|vals; lia]. apply fmul_ceil_ok in E0 as [-> _]; [|vals; lia].
    apply i128_ok in E1 as [-> _]. vals. change (1000000000 ÷ 10) with 100000000. destruct (_ <? _) eqn:?; lia.
Qed.

Lemma next_ir_mod_range cfg util m dts nm :
  cfg_bounds cfg -> 0 <= dts -> 100000000 <= m <= 10000000000 -> next_ir_mod cfg util m dts = Ok nm ->
  100000000 <= nm <= 10000000000.
Proof.
  intros Hc Hd Hm H. apply next_ir_mod_spec in H; try done.
  destruct Hc as (_ & _ & _ & _ & _ & _ & _ & _ & Hr). destruct H as [[H ->] | [H ->]].
  - assert (0 <= dts * ((util - rc_util cfg) * 100) / 1000000000) by (apply Z.div_pos; nia).
    assert (0 <= dts * ((util - rc_util cfg) * 100) / 1000000000 * rc_reactivity cfg / 10000000) by (apply Z.div_pos; nia). lia.
  - assert (cdiv (dts * ((util - rc_util cfg) * 100)) 1000000000 <= 0) by (apply cdiv_le_iff; nia).
    assert (cdiv (cdiv (dts * ((util - rc_util cfg) * 100)) 1000000000 * rc_reactivity cfg) 10000000 <= 0) by (apply cdiv_le_iff; nia). lia.
Qed.

Lemma next_ir_mod_mono cfg u1 u2 m dts n1 n2 :
  cfg_bounds cfg -> 0 <= dts -> u1 <= u2 -> 100000000 <= m <= 10000000000 ->
  next_ir_mod cfg u1 m dts = Ok n1 -> next_ir_mod cfg u2 m dts = Ok n2 -> n1 <= n2.
Proof.
  intros Hc Hd Hu Hm H1 H2. pose proof H1 as H1'. pose proof H2 as H2'.
  apply next_ir_mod_spec in H1, H2; try done.
  destruct Hc as (_ & _ & _ & _ & _ & _ & _ & _ & Hr).
  destruct H1 as [[G1 ->] | [G1 ->]], H2 as [[G2 ->] | [G2 ->]]; try lia.
  - assert (dts * ((u1 - rc_util cfg) * 100) / 1000000000 <= dts * ((u2 - rc_util cfg) * 100) / 1000000000) by (apply Z.div_le_mono; nia).
    assert (dts * ((u1 - rc_util cfg) * 100) / 1000000000 * rc_reactivity cfg / 10000000 <= dts * ((u2 - rc_util cfg) * 100) / 1000000000 * rc_reactivity cfg / 10000000) by (apply Z.div_le_mono; nia). lia.
  - assert (cdiv (dts * ((u1 - rc_util cfg) * 100)) 1000000000 <= 0) by (apply cdiv_le_iff; nia).
    assert (cdiv (cdiv (dts * ((u1 - rc_util cfg) * 100)) 1000000000 * rc_reactivity cfg) 10000000 <= 0) by (apply cdiv_le_iff; nia).
    assert (0 <= dts * ((u2 - rc_util cfg) * 100) / 1000000000) by (apply Z.div_pos; nia).
    assert (0 <= dts * ((u2 - rc_util cfg) * 100) / 1000000000 * rc_reactivity cfg / 10000000) by (apply Z.div_pos; nia). lia.
  - assert (cdiv (dts * ((u1 - rc_util cfg) * 100)) 1000000000 <= cdiv (dts * ((u2 - rc_util cfg) * 100)) 1000000000) by (apply cdiv_mono; nia).
    assert (cdiv (cdiv (dts * ((u1 - rc_util cfg) * 100)) 1000000000 * rc_reactivity cfg) 10000000 <= cdiv (cdiv (dts * ((u2 - rc_util cfg) * 100)) 1000000000 * rc_reactivity cfg) 10000000) by (apply cdiv_mono; nia). lia.
Qed.

Lemma calc_accrual_spec now cfg util m last acc nm :
  calc_accrual now cfg util m last = Ok (acc, nm) ->
  exists ir, cur_rate cfg util m = Ok ir /\ last <= now /\
    next_ir_mod cfg util m ((now - last) * 1000000000) = Ok nm /\
    acc = 1000000000 + cdiv ((now - last) * 1000000000 ÷ 31536000 * (ir * 100)) 1000000000.
Proof.
  unfold calc_accrual. intros H. mon H. apply u64_ok in E0 as [-> ?]. apply i128_ok in E1 as [-> _].
  apply i128_ok in E3 as [-> _]. apply fmul_ceil_ok in E4 as [-> _]; [|vals; lia]. apply i128_ok in E5 as [-> _].
  exists ir. split; [done|]. split; [lia|]. split; [done|]. done.
Qed.

Lemma utilization_spec d u : rd_ok d -> 0 < rd_b_supply d -> utilization d = Ok u ->
  u = cdiv (debt d * 10000000) (claims9 d / 1000000000) /\ 0 < claims9 d / 1000000000 /\ 0 <= u /\ 0 <= debt d.
Proof.
  intros [] Hb H. unfold utilization, total_liab, total_supply, asset_from_d, asset_from_b in H. mon H.
  apply fmul_ceil_ok in E as [-> _]; [|vals; lia]. apply fmul_floor_ok in E0 as [-> _]; [|vals; lia]. vals.
  assert (0 < rd_b_supply d * rd_b_rate d / 1000000000).
  { assert (1 <= rd_b_supply d * rd_b_rate d / 1000000000); [|lia]. apply div_le_iff; nia. }
  assert (0 <= debt d) by (unfold debt; apply cdiv_nonneg; nia).
  apply fdiv_ceil_ok in H as [-> _]; [|done]. split; [done|]. split; [done|]. split; [|done].
  apply cdiv_nonneg; unfold debt in *; lia.
Qed.

Lemma claims_div_le x b d : 0 < b -> 0 <= d -> b * (x * d / b) <= x * d.
Proof. intros Hb _. pose proof (fdiv_spec (x * d) b Hb). lia. Qed.

Lemma accrue_spec now rate cfg d d' :
  rd_ok d -> cfg_bounds cfg -> 0 <= rate < 10000000 -> accrue now rate cfg d = Ok d' ->
  rd_ok d' /\ rd_b_supply d' = rd_b_supply d /\ rd_d_supply d' = rd_d_supply d /\ rd_last_time d' = now /\
  rd_d_rate d <= rd_d_rate d' /\ rd_b_rate d <= rd_b_rate d' /\ 0 <= accrued d d' /\
  rd_credit d' = rd_credit d + accrued d d' * rate / 10000000 /\
  claims9 d' - claims9 d + 1000000000 * (rd_credit d' - rd_credit d) <= 1000000000 * accrued d d' /\
  (accrued d d' = 0 -> rd_b_rate d' = rd_b_rate d) /\
  (rd_d_supply d = 0 \/ now = rd_last_time d -> d' = d <| rd_last_time := now |>).
Proof.
  intros W Hc Hr H.
  assert (forall d1, d1 = d <| rd_last_time := now |> ->
    rd_ok d1 /\ rd_b_supply d1 = rd_b_supply d /\ rd_d_supply d1 = rd_d_supply d /\ rd_last_time d1 = now /\
    rd_d_rate d <= rd_d_rate d1 /\ rd_b_rate d <= rd_b_rate d1 /\ 0 <= accrued d d1 /\
    rd_credit d1 = rd_credit d + accrued d d1 * rate / 10000000 /\
    claims9 d1 - claims9 d + 1000000000 * (rd_credit d1 - rd_credit d) <= 1000000000 * accrued d d1 /\
    (accrued d d1 = 0 -> rd_b_rate d1 = rd_b_rate d) /\
    (rd_d_supply d = 0 \/ now = rd_last_time d -> d1 = d <| rd_last_time := now |>)) as Hsame.
  { intros d1 ->. destruct W. unfold accrued, debt, claims9; simpl. split; [by constructor|].
    rewrite !Z.sub_diag. change (0 * rate / 10000000) with 0. repeat split; try done; lia. }
  unfold accrue in H.
  destruct (now =? rd_last_time d) eqn:Et.
  { mon H. apply Hsame. destruct d'; unfold set; simpl in *. f_equal. lia. }
  destruct (rd_b_supply d =? 0) eqn:Eb; [mon H; by apply Hsame|].
  pose proof (ro_bs d W). mon H. pose proof E as Eu. apply utilization_spec in E as (-> & Hcl & Hu0 & Hde); [|done|lia].
  destruct (cdiv _ _ =? 0) eqn:Eu0; [mon H; by apply Hsame|]. clear Hsame.
  mon H.
  match goal with E : calc_accrual _ _ _ _ _ = Ok _ |- _ =>
    apply calc_accrual_spec in E as (ir & Hir & Hlast & Hnm & ->) end.
  apply cur_rate_nonneg in Hir; [|done|lia|destruct W; lia].
  apply next_ir_mod_range in Hnm; [|done|lia|apply W].
  unfold total_supply, asset_from_b in *. unfold total_liab, asset_from_d in *.
  match goal with E : fmul_floor _ _ SCALAR_9 = Ok pre_s |- _ => apply fmul_floor_ok in E as [-> _]; [|vals; lia] end.
  match goal with E : fmul_ceil _ _ SCALAR_9 = Ok pre_l |- _ => apply fmul_ceil_ok in E as [-> _]; [|vals; lia] end.
  match goal with E : fmul_ceil _ _ SCALAR_9 = Ok ndr |- _ => apply fmul_ceil_ok in E as [-> _]; [|vals; lia] end.
  match goal with E : fmul_ceil _ _ SCALAR_9 = Ok post_l |- _ => apply fmul_ceil_ok in E as [-> _]; [|vals; lia] end.
  match goal with E : i128 _ = Ok acc |- _ => apply i128_ok in E as [-> _] end.
  cbn [rd_d_rate rd_d_supply rd_credit rd_b_supply rd_b_rate set] in *. simpl in *.
  set (la := 1000000000 + _) in *.
  assert (1000000000 <= la).
  { subst la. assert (0 <= (now - rd_last_time d) * 1000000000 ÷ 31536000) by (apply Z.quot_pos; lia).
    pose proof (cdiv_nonneg ((now - rd_last_time d) * 1000000000 ÷ 31536000 * (ir * 100)) 1000000000 ltac:(lia) ltac:(nia)). lia. }
  clearbody la. destruct W as [W1 W2 W3 W4 W5]. vals.
  set (ndr := cdiv (la * rd_d_rate d) 1000000000) in *.
  assert (rd_d_rate d <= ndr).
  { subst ndr. rewrite <- (cdiv_exact (rd_d_rate d) 1000000000) at 1 by lia. apply cdiv_mono; nia. }
  set (D := rd_d_supply d) in *. set (B := rd_b_supply d) in *.
  assert (cdiv (D * rd_d_rate d) 1000000000 <= cdiv (D * ndr) 1000000000) as Hle by (apply cdiv_mono; nia).
  destruct (0 <? _) eqn:Ea.
  - mon H.
    match goal with E : i128 _ = Ok cr |- _ => apply i128_ok in E as [-> _] end.
    match goal with E : i128 _ = Ok t2 |- _ => apply i128_ok in E as [-> _] end.
    match goal with E : i128 _ = Ok t1 |- _ => apply i128_ok in E as [-> _] end.
    match goal with E : fdiv_floor _ _ _ = Ok nbr |- _ => apply fdiv_floor_ok in E as [-> _]; [|lia] end.
    set (acc := cdiv (D * ndr) 1000000000 - cdiv (D * rd_d_rate d) 1000000000) in *.
    assert (nc = acc * rate / 10000000) as ->.
    { match goal with E : (if ?b then _ else _) = Ok nc |- _ => destruct b eqn:? end.
      - match goal with E : fmul_floor _ _ _ = Ok nc |- _ => apply fmul_floor_ok in E as [-> _]; [|lia]; done end.
      - replace rate with 0 by lia. rewrite Z.mul_0_r. simpl. match goal with E : Ok 0 = Ok nc |- _ => injection E as <- end. done. }
    set (nc := acc * rate / 10000000) in *.
    assert (0 <= nc < acc) as Hnc.
    { subst nc. split; [apply Z.div_pos; nia|]. apply Z.div_lt_upper_bound; nia. }
    pose proof (fdiv_spec (B * rd_b_rate d) 1000000000 ltac:(lia)) as Hps.
    set (pre := B * rd_b_rate d / 1000000000) in *.
    assert (rd_b_rate d <= (pre + acc - nc) * 1000000000 / B) as Hbr.
    { apply div_le_iff; lia. }
    unfold accrued, debt, claims9; simpl. fold D B ndr acc.
    split; [constructor; simpl; vals; lia|].
    split; [done|]. split; [done|]. split; [done|]. split; [done|]. split; [done|]. split; [lia|]. split; [fold nc; lia|].
    split.
    { pose proof (claims_div_le (pre + acc - nc) B 1000000000 ltac:(lia) ltac:(lia)). lia. }
    split; [intros; lia|]. intros [Hz|Hz]; [|lia]. exfalso. assert (acc = 0) by (unfold acc; rewrite Hz; reflexivity). lia.
  - mon H. unfold accrued, debt, claims9; simpl. fold D B ndr.
    assert (cdiv (D * ndr) 1000000000 = cdiv (D * rd_d_rate d) 1000000000) as Heq by lia. rewrite Heq.
    split; [constructor; simpl; vals; lia|]. rewrite !Z.sub_diag. change (0 * rate / 10000000) with 0.
    split; [done|]. split; [done|]. split; [done|]. split; [done|]. split; [lia|]. split; [lia|]. split; [lia|]. split; [lia|].
    split; [done|]. intros [Hz|Hz]; [|lia]. exfalso.
    assert (debt d = 0) as Hd0 by (unfold debt; fold D; rewrite Hz; reflexivity).
    rewrite Hd0 in Eu0. apply Z.eqb_neq in Eu0. apply Eu0. reflexivity.
Qed.
