(** * The interest curve: C59; no interest is lost: C14 *)
From Coq Require Import QArith Qfield Lqa.
From Verif Require Import Base Types Token Emitter Factory Backstop PoolReserve PoolUser PoolHealth
  PoolAuction PoolSubmit PoolEmis PoolAdmin World Facts XMove Spec PoolFrame PoolCfg PoolAccrue PoolTrace PoolInv AuctionFacts
  PoolSim PoolReq PoolHF PoolOps PoolLiq PoolReach PoolTx FrameFacts PropsPool1 PropsPool2 PropsPool3 PropsPool4 PropsPool5.
Local Open Scope Z_scope.

(** ** Specification: the documented curve, in exact rational arithmetic

    [u] is the utilization, [m] the rate modifier, the result the interest per year *)
Definition q7 (n : Z) : Q := inject_Z n / 10000000.
Definition q9 (n : Z) : Q := inject_Z n / 1000000000.
Definition yearly_rate (cfg : ResConfig) (u m : Q) : Q :=
  let t := q7 (rc_util cfg) in
  let base := q7 (rc_r_base cfg) in
  let r1 := q7 (rc_r_one cfg) in
  let r2 := q7 (rc_r_two cfg) in
  let r3 := q7 (rc_r_three cfg) in
  (if Qle_bool u t then (base + u / t * r1) * m
   else if Qle_bool u (95 # 100) then (base + r1 + (u - t) / ((95 # 100) - t) * r2) * m
   else (base + r1 + r2) * m + (u - (95 # 100)) / (5 # 100) * r3)%Q.
(** the part of a year between two times *)
Definition years (from to : Z) : Q := (inject_Z (to - from) / inject_Z (365 * 24 * 60 * 60))%Q.

(** ** Lemmas *)
Lemma q7_le a b : (a <= b)%Z -> (q7 a <= q7 b)%Q.
Proof. intros H. unfold q7. apply Qle_shift_div_l; [reflexivity|]. rewrite Zle_Qle in H. field_simplify. lra. Qed.
Lemma q7_mul a : (q7 a * 10000000 == inject_Z a)%Q. Proof. unfold q7. field. Qed.
Lemma q9_mul a : (q9 a * 1000000000 == inject_Z a)%Q. Proof. unfold q9. field. Qed.
Lemma q7_nonneg a : (0 <= a)%Z -> (0 <= q7 a)%Q.
Proof. intros H. rewrite Zle_Qle in H. pose proof (q7_mul a). change (inject_Z 0) with 0%Q in H. lra. Qed.
Lemma q9_nonneg a : (0 <= a)%Z -> (0 <= q9 a)%Q.
Proof. intros H. rewrite Zle_Qle in H. pose proof (q9_mul a). change (inject_Z 0) with 0%Q in H. lra. Qed.
Lemma q7_le_iff a b : Qle_bool (q7 a) (q7 b) = (a <=? b)%Z.
Proof.
  destruct (Z.leb_spec a b) as [H|H]; [apply Qle_bool_iff, q7_le; done|].
  apply not_true_iff_false. intros E. apply Qle_bool_iff in E. rewrite Zlt_Qlt in H. pose proof (q7_mul a). pose proof (q7_mul b). lra.
Qed.
Lemma cdiv_Q a b : (0 < b)%Z -> (inject_Z a <= inject_Z b * inject_Z (cdiv a b) <= inject_Z a + inject_Z b)%Q.
Proof.
  intros H. pose proof (cdiv_spec a b H) as [H1 H2]. rewrite <- inject_Z_mult, <- inject_Z_plus. rewrite <- !Zle_Qle. lia.
Qed.
Lemma Qmul_le a b c : (0 <= c)%Q -> (a <= b)%Q -> (a * c <= b * c)%Q.
Proof. intros H1 H2. by apply Qmult_le_compat_r. Qed.

(** the integer rate is the exact one rounded up *)
Lemma cur_rate_curve cfg util m r :
  cfg_bounds cfg -> 0 < util -> 0 <= m -> cur_rate cfg util m = Ok r ->
  (yearly_rate cfg (q7 util) (q9 m) <= q7 r <= yearly_rate cfg (q7 util) (q9 m) + (q9 m * (q7 (rc_r_three cfg) + 1) + 2) / 10000000)%Q.
Proof.
  intros Hc Hu Hm H. apply cur_rate_spec in H; [|done..]. destruct Hc as (_ & _ & _ & Ht & Hmu & Hb & H1 & H2 & _).
  assert (0 <= q9 m)%Q as Qm by by apply q9_nonneg. pose proof (q9_mul m) as Em. pose proof (q7_mul r) as Er. set (M := q9 m) in *. clearbody M. set (I := q7 r) in *. clearbody I.
  assert (0 <= q7 (rc_r_base cfg))%Q as Q0 by (apply q7_nonneg; lia). assert (0 <= q7 (rc_r_one cfg))%Q as Q1 by (apply q7_nonneg; lia).
  assert (0 <= q7 (rc_r_two cfg))%Q as Q2 by (apply q7_nonneg; lia). assert (0 <= q7 (rc_r_three cfg))%Q as Q3 by (apply q7_nonneg; lia).
  assert (q7 (rc_r_one cfg) <= q7 (rc_r_three cfg))%Q as L1 by (apply q7_le; lia). assert (q7 (rc_r_two cfg) <= q7 (rc_r_three cfg))%Q as L2 by (apply q7_le; lia).
  pose proof (q7_mul (rc_r_base cfg)) as E0. pose proof (q7_mul (rc_r_one cfg)) as E1. pose proof (q7_mul (rc_r_two cfg)) as E2. pose proof (q7_mul (rc_r_three cfg)) as E3.
  unfold yearly_rate. set (b := q7 (rc_r_base cfg)) in *. set (r1 := q7 (rc_r_one cfg)) in *. set (r2 := q7 (rc_r_two cfg)) in *. set (r3 := q7 (rc_r_three cfg)) in *.
  clearbody b r1 r2 r3. change (95 # 100)%Q with (95 # 100)%Q.
  rewrite q7_le_iff.
  assert ((95 # 100) == q7 9500000)%Q as E95 by reflexivity.
  assert (Qle_bool (q7 util) (95 # 100) = (util <=? 9500000)) as ->.
  { rewrite <- q7_le_iff. apply eq_true_iff_eq. by rewrite !Qle_bool_iff, E95. }
  (* the common last steps: base rate [s] in units of 1e-7, scaled by the modifier *)
  assert (forall (n B R : Z) (x rr : Q), (0 <= rr)%Q -> (rr <= r3)%Q -> (rr * 10000000 == inject_Z R)%Q -> (x * 10000000 <= inject_Z n <= x * 10000000 + 1)%Q ->
    (forall z, inject_Z z == inject_Z (cdiv (n * R) 10000000) + inject_Z B -> r = cdiv (z * m) 1000000000 ->
     ((inject_Z B / 10000000 + x * rr) * M <= I <= (inject_Z B / 10000000 + x * rr) * M + (M * (r3 + 1) + 2) / 10000000))%Q) as Hleg.
  { intros n B R x rr Hr0 Hr3 HR [X1 X2] z Hz Hr.
    destruct (cdiv_Q (n * R) 10000000 ltac:(lia)) as [C1 C2]. destruct (cdiv_Q (z * m) 1000000000 ltac:(lia)) as [D1 D2]. rewrite <- Hr in D1, D2.
    rewrite inject_Z_mult in C1, C2, D1, D2. rewrite <- HR in C1, C2. rewrite <- Em, Hz, <- Er in D1, D2.
    change (inject_Z 10000000) with (10000000 # 1) in *. change (inject_Z 1000000000) with (1000000000 # 1) in *.
    set (N := inject_Z n) in *. set (C := inject_Z (cdiv (n * R) 10000000)) in *. clearbody N C. set (BB := inject_Z B) in *. clearbody BB.
    assert (x * 10000000 * rr <= N * rr)%Q as P1 by (by apply Qmul_le). assert (N * rr <= (x * 10000000 + 1) * rr)%Q as P2 by (by apply Qmul_le).
    assert (x * rr * 10000000 <= C)%Q as P3 by lra. assert (C <= x * rr * 10000000 + rr + 1)%Q as P4 by lra.
    assert (BB / 10000000 * 10000000 == BB)%Q as EB by field. set (bb := (BB / 10000000)%Q) in *. clearbody bb.
    set (y := (x * rr)%Q) in *. clearbody y.
    assert ((y * 10000000 + BB) * M <= (C + BB) * M)%Q as P5 by (apply Qmul_le; lra).
    assert ((C + BB) * M <= (y * 10000000 + r3 + 1 + BB) * M)%Q as P6 by (apply Qmul_le; lra).
    assert ((M * (r3 + 1) + 2) / 10000000 * 10000000 == M * (r3 + 1) + 2)%Q as ED by field. set (dd := ((M * (r3 + 1) + 2) / 10000000)%Q) in *. clearbody dd.
    rewrite <- EB in *. split; lra. }
  destruct H as [[L ->] | [[L ->] | (L & L' & ->)]].
  - rewrite (proj2 (Z.leb_le _ _)) by lia.
    destruct (cdiv_Q (util * 10000000) (rc_util cfg) ltac:(lia)) as [C1 C2].
    assert (0 < inject_Z (rc_util cfg))%Q as Tp by (rewrite <- (Zlt_Qlt 0); lia).
    assert (q7 util / q7 (rc_util cfg) * inject_Z (rc_util cfg) == inject_Z util)%Q as Ex by (unfold q7; field; lra).
    set (x := (q7 util / q7 (rc_util cfg))%Q) in *. clearbody x.
    assert (b == inject_Z (rc_r_base cfg) / 10000000)%Q as Eb by (rewrite <- E0; field). rewrite Eb.
    refine (Hleg (cdiv (util * 10000000) (rc_util cfg)) (rc_r_base cfg) (rc_r_one cfg) x r1 Q1 L1 E1 _ _ _ eq_refl).
    + rewrite inject_Z_mult in C1, C2. rewrite <- Ex in C1, C2. change (inject_Z 10000000) with (10000000 # 1)%Q in *. set (N := inject_Z (cdiv _ _)) in *. clearbody N.
      set (T := inject_Z (rc_util cfg)) in *. clearbody T.
      split.
      * apply Qmult_le_r with T; [done|]. lra.
      * apply Qmult_le_r with T; [done|]. lra.
    + by rewrite inject_Z_plus.
  - rewrite (proj2 (Z.leb_gt _ _)) by lia. rewrite (proj2 (Z.leb_le util 9500000)) by lia.
    destruct (cdiv_Q ((util - rc_util cfg) * 10000000) (9500000 - rc_util cfg) ltac:(lia)) as [C1 C2].
    assert (0 < inject_Z (9500000 - rc_util cfg))%Q as Tp by (rewrite <- (Zlt_Qlt 0); lia).
    assert ((q7 util - q7 (rc_util cfg)) / ((95 # 100) - q7 (rc_util cfg)) * inject_Z (9500000 - rc_util cfg) == inject_Z (util - rc_util cfg))%Q as Ex.
    { rewrite E95. unfold q7. unfold Zminus in *. rewrite inject_Z_plus, inject_Z_opp in *. rewrite !inject_Z_plus, !inject_Z_opp. change (inject_Z 9500000) with (9500000 # 1)%Q in *. field. intros E. set (T := inject_Z (rc_util cfg)) in *. clearbody T. lra. }
    set (x := ((q7 util - q7 (rc_util cfg)) / ((95 # 100) - q7 (rc_util cfg)))%Q) in *. clearbody x.
    assert (b + r1 == inject_Z (rc_r_one cfg + rc_r_base cfg) / 10000000)%Q as Eb by (rewrite inject_Z_plus, <- E0, <- E1; field). rewrite Eb.
    refine (Hleg (cdiv ((util - rc_util cfg) * 10000000) (9500000 - rc_util cfg)) (rc_r_one cfg + rc_r_base cfg) (rc_r_two cfg) x r2 Q2 L2 E2 _ _ _ eq_refl).
    + rewrite inject_Z_mult in C1, C2. rewrite <- Ex in C1, C2. change (inject_Z 10000000) with (10000000 # 1)%Q in *. set (N := inject_Z (cdiv _ _)) in *. clearbody N.
      set (T := inject_Z (9500000 - _)) in *. clearbody T.
      split.
      * apply Qmult_le_r with T; [done|]. lra.
      * apply Qmult_le_r with T; [done|]. lra.
    + rewrite !inject_Z_plus. ring.
  - rewrite (proj2 (Z.leb_gt _ _)) by lia. rewrite (proj2 (Z.leb_gt util 9500000)) by lia.
    assert (cdiv ((util - 9500000) * 10000000) 500000 = 20 * (util - 9500000)) as Es.
    { replace ((util - 9500000) * 10000000) with (500000 * (20 * (util - 9500000))) by lia. apply cdiv_exact. lia. }
    rewrite Es in *. destruct (cdiv_Q (20 * (util - 9500000) * rc_r_three cfg) 10000000 ltac:(lia)) as [C1 C2].
    destruct (cdiv_Q (m * (rc_r_two cfg + rc_r_one cfg + rc_r_base cfg)) 1000000000 ltac:(lia)) as [D1 D2].
    rewrite inject_Z_plus in Er.
    set (X := inject_Z (cdiv (20 * _ * _) _)) in *. set (Y := inject_Z (cdiv (m * _) _)) in *. clearbody X Y.
    rewrite !inject_Z_mult, !inject_Z_plus in *. rewrite <- E3 in *. rewrite <- E2, <- E1, <- E0, <- Em in *.
    change (inject_Z 10000000) with (10000000 # 1)%Q in *. change (inject_Z 1000000000) with (1000000000 # 1)%Q in *. change (inject_Z 20) with (20 # 1)%Q in *.
    change (- (9500000))%Z with (- 9500000)%Z in *. change (inject_Z (- 9500000)) with (- 9500000 # 1)%Q in *.
    assert ((q7 util - (95 # 100)) / (5 # 100) * 10000000 == 20 * (inject_Z util + (- 9500000 # 1)))%Q as Ex by (unfold q7; field).
    set (x := ((q7 util - (95 # 100)) / (5 # 100))%Q) in *. clearbody x. assert (x * 10000000 * r3 == 20 * (inject_Z util + (- 9500000 # 1)) * r3)%Q as Ex' by (rewrite Ex; ring).
    assert ((M * (r3 + 1) + 2) / 10000000 * 10000000 == M * (r3 + 1) + 2)%Q as ED by field. set (dd := ((M * (r3 + 1) + 2) / 10000000)%Q) in *. clearbody dd.
    assert (0 <= M * (r3 + 1))%Q by (apply Qmult_le_0_compat; lra).
    assert (inject_Z (util - 9500000) == inject_Z util + (- 9500000 # 1))%Q as Eu by (unfold Zminus; rewrite inject_Z_plus; reflexivity). rewrite Eu in C1, C2.
    clear - C1 C2 D1 D2 Er Ex' ED H. split; lra.
Qed.

Lemma yearly_rate_nonneg cfg u m : cfg_bounds cfg -> 0 < u -> 0 <= m -> (0 <= yearly_rate cfg (q7 u) (q9 m))%Q.
Proof.
  intros Hc Hu Hm. destruct Hc as (_ & _ & _ & Ht & Hmu & Hb & H1 & H2 & _).
  assert (0 <= q9 m)%Q as Qm by by apply q9_nonneg.
  assert (0 <= q7 (rc_r_base cfg))%Q as Q0 by (apply q7_nonneg; lia). assert (0 <= q7 (rc_r_one cfg))%Q as Q1 by (apply q7_nonneg; lia).
  assert (0 <= q7 (rc_r_two cfg))%Q as Q2 by (apply q7_nonneg; lia). assert (0 <= q7 (rc_r_three cfg))%Q as Q3 by (apply q7_nonneg; lia).
  assert (0 < q7 u)%Q as Qu. { rewrite Zlt_Qlt in Hu. pose proof (q7_mul u). change (inject_Z 0) with 0%Q in Hu. lra. }
  unfold yearly_rate. destruct (Qle_bool (q7 u) (q7 (rc_util cfg))) eqn:E1; [|destruct (Qle_bool (q7 u) (95 # 100)) eqn:E2].
  - apply Qle_bool_iff in E1. apply Qmult_le_0_compat; [|done].
    assert (0 <= q7 u / q7 (rc_util cfg))%Q as Hx by (apply Qle_shift_div_l; lra).
    pose proof (Qmult_le_0_compat _ _ Hx Q1). lra.
  - apply Qle_bool_iff in E2. apply not_true_iff_false in E1. rewrite Qle_bool_iff in E1. apply Qnot_le_lt in E1. apply Qmult_le_0_compat; [|done].
    assert (0 <= (q7 u - q7 (rc_util cfg)) / ((95 # 100) - q7 (rc_util cfg)))%Q as Hx by (apply Qle_shift_div_l; lra).
    pose proof (Qmult_le_0_compat _ _ Hx Q2). lra.
  - apply not_true_iff_false in E2. rewrite Qle_bool_iff in E2. apply Qnot_le_lt in E2.
    assert (0 <= (q7 u - (95 # 100)) / (5 # 100))%Q as Hx by (apply Qle_shift_div_l; lra).
    pose proof (Qmult_le_0_compat _ _ Hx Q3) as P. assert (0 <= q7 (rc_r_base cfg) + q7 (rc_r_one cfg) + q7 (rc_r_two cfg))%Q as Hs by lra.
    pose proof (Qmult_le_0_compat _ _ Hs Qm). lra.
Qed.

(** one accrual *)
Lemma accrue_curve now rate cfg d d' :
  rd_ok d -> cfg_bounds cfg -> accrue now rate cfg d = Ok d' -> 0 < util_of d ->
  let r := yearly_rate cfg (q7 (util_of d)) (q9 (rd_ir_mod d)) in
  let y := years (rd_last_time d) now in
  let slack := ((q9 (rd_ir_mod d) * (q7 (rc_r_three cfg) + 1) + 2) / 10000000)%Q in
  (inject_Z (rd_d_rate d) * (1 + (y - (1 # 1000000000)) * r) <= inject_Z (rd_d_rate d') <=
     inject_Z (rd_d_rate d) * (1 + y * (r + slack) + (1 # 1000000000)) + 1)%Q.
Proof.
  intros W Hc H Hu. cbv zeta. pose proof (ro_d _ W) as Hd0. pose proof (ro_ir _ W) as Him. vals.
  pose proof (yearly_rate_nonneg cfg (util_of d) (rd_ir_mod d) Hc Hu ltac:(lia)) as Hr0.
  assert (0 < inject_Z (rd_d_rate d))%Q as Hdq by (rewrite <- (Zlt_Qlt 0); lia).
  destruct (accrue_cases _ _ _ _ _ W H) as [(E & [El|Z0])|(Hn & _ & a & n & Hca & E)]; [|lia|].
  - rewrite E. unfold years. rewrite El, Z.sub_diag. assert (inject_Z 0 / inject_Z (365 * 24 * 60 * 60) == 0)%Q as -> by reflexivity.
    set (r := yearly_rate _ _ _) in *. clearbody r. set (D := inject_Z _) in *. clearbody D. set (sl := (_ / _)%Q). clearbody sl.
    pose proof (Qmult_le_0_compat _ _ (Qlt_le_weak _ _ Hdq) Hr0). split; lra.
  - apply calc_accrual_spec in Hca as (ir & Hir & Hl & _ & Ha).
    apply cur_rate_curve in Hir as [I1 I2]; [|done|done|lia].
    set (r := yearly_rate _ _ _) in *. clearbody r. set (sl := (_ / _)%Q) in *. clearbody sl.
    set (tw := ((now - rd_last_time d) * 1000000000 ÷ 31536000)) in *.
    assert (0 <= tw) as Ht0 by (apply Z.quot_pos; lia).
    assert (years (rd_last_time d) now * 1000000000 - 1 <= inject_Z tw <= years (rd_last_time d) now * 1000000000)%Q as [T1 T2].
    { unfold tw. rewrite Z.quot_div_nonneg by lia. pose proof (fdiv_spec ((now - rd_last_time d) * 1000000000) 31536000 ltac:(lia)) as [F1 F2].
      set (q := _ / 31536000) in *. clearbody q. unfold years. change (365 * 24 * 60 * 60) with 31536000.
      rewrite Zle_Qle in F1. assert ((now - rd_last_time d) * 1000000000 <= 31536000 * q + 31536000) as F3 by lia. rewrite Zle_Qle in F3.
      rewrite !inject_Z_mult in F1. rewrite inject_Z_plus, !inject_Z_mult in F3. set (dt := inject_Z (now - rd_last_time d)) in *. clearbody dt.
      change (inject_Z 1000000000) with (1000000000 # 1)%Q in *. change (inject_Z 31536000) with (31536000 # 1)%Q in *.
      assert (dt / (31536000 # 1) * 31536000 == dt)%Q as Ed by field. set (y := (dt / _)%Q) in *. clearbody y. split; lra. }
    destruct (cdiv_Q (tw * (ir * 100)) 1000000000 ltac:(lia)) as [G1 G2].
    destruct (cdiv_Q (a * rd_d_rate d) 1000000000 ltac:(lia)) as [D1 D2]. rewrite <- E in D1, D2.
    rewrite inject_Z_mult in D1, D2. rewrite Ha, inject_Z_plus in D1, D2. rewrite !inject_Z_mult in G1, G2.
    rewrite <- (q7_mul ir) in G1, G2. change (inject_Z 1000000000) with (1000000000 # 1)%Q in *. change (inject_Z 100) with (100 # 1)%Q in *.
    set (g := inject_Z (cdiv (tw * (ir * 100)) 1000000000)) in *. clearbody g. set (D := inject_Z (rd_d_rate d)) in *. clearbody D.
    set (D' := inject_Z (rd_d_rate d')) in *. clearbody D'. set (i := q7 ir) in *. clearbody i.
    assert (0 <= inject_Z tw)%Q as T0 by (rewrite <- (Zle_Qle 0); lia).
    set (T := inject_Z tw) in *. clearbody T. set (y := years _ _) in *. clearbody y.
    assert (r * T <= i * T)%Q as P1 by (by apply Qmul_le). assert (i * T <= (r + sl) * T)%Q as P2 by (by apply Qmul_le).
    assert ((y * 1000000000 - 1) * r <= T * r)%Q as P3 by (by apply Qmul_le).
    assert (T * (r + sl) <= y * 1000000000 * (r + sl))%Q as P4 by (apply Qmul_le; lra).
    assert ((y * 1000000000 - 1) * r <= g)%Q as P5 by lra. assert (g <= y * 1000000000 * (r + sl) + 1)%Q as P6 by lra.
    assert ((y * 1000000000 - 1) * r * D <= g * D)%Q as P7 by (apply Qmul_le; [by apply Qlt_le_weak|done]).
    assert (g * D <= (y * 1000000000 * (r + sl) + 1) * D)%Q as P8 by (apply Qmul_le; [by apply Qlt_le_weak|done]).
    clear - D1 D2 P7 P8. split; lra.
Qed.

(** the new rate modifier *)
Definition next_modifier (cfg : ResConfig) (util m dt : Z) : Z :=
  if rc_util cfg <=? util then Z.min 10000000000 (m + dt * (util - rc_util cfg) * rc_reactivity cfg / 100000)
  else Z.max 100000000 (m + cdiv (dt * (util - rc_util cfg) * rc_reactivity cfg) 100000).
Lemma cancel_div a b k : 0 < b -> 0 < k -> a * k / (b * k) = a / b.
Proof. intros. apply Z.div_mul_cancel_r; lia. Qed.
Lemma cancel_cdiv a b k : 0 < b -> 0 < k -> cdiv (a * k) (b * k) = cdiv a b.
Proof. intros. unfold cdiv. replace (- (a * k)) with (- a * k) by lia. by rewrite Z.div_mul_cancel_r by lia. Qed.
Lemma accrue_modifier now rate cfg d d' :
  rd_ok d -> cfg_bounds cfg -> accrue now rate cfg d = Ok d' ->
  rd_ir_mod d' = if (now =? rd_last_time d) || (util_of d =? 0) then rd_ir_mod d
                 else next_modifier cfg (util_of d) (rd_ir_mod d) (now - rd_last_time d).
Proof.
  intros W Hc H. unfold accrue in H. destruct (Z.eqb_spec now (rd_last_time d)) as [E|E]; [by injection H as <-|].
  unfold util_of. destruct (Z.eqb_spec (rd_b_supply d) 0) as [Eb|Eb]; [by injection H as <-|].
  apply bind_ok in H as (u & Eu & H). apply utilization_spec in Eu as (-> & Hcl & Hu0 & _); [|done|pose proof (ro_bs d W); lia].
  unfold debt, claims9 in *. set (u := cdiv _ _) in *. cbn [orb]. destruct (Z.eqb_spec u 0) as [Hz|Hz]; [by injection H as <-|]. clearbody u.
  apply bind_ok in H as ([la nm] & Eca & H). apply calc_accrual_spec in Eca as (ir & _ & Hl & Hnm & _).
  apply next_ir_mod_spec in Hnm; [|done|lia].
  assert (rd_ir_mod d' = nm) as -> by (mon H; destruct (0 <? _); mon H; done).
  unfold next_modifier. destruct Hnm as [[Hge ->]|[Hlt ->]].
  - rewrite (proj2 (Z.leb_le _ _)) by done. do 2 f_equal.
    replace ((now - rd_last_time d) * 1000000000 * ((u - rc_util cfg) * 100)) with ((now - rd_last_time d) * (u - rc_util cfg) * 100 * 1000000000) by lia.
    rewrite Z.div_mul by lia. change 10000000 with (100000 * 100).
    replace ((now - rd_last_time d) * (u - rc_util cfg) * 100 * rc_reactivity cfg) with ((now - rd_last_time d) * (u - rc_util cfg) * rc_reactivity cfg * 100) by lia.
    apply cancel_div; lia.
  - rewrite (proj2 (Z.leb_gt _ _)) by done. do 2 f_equal.
    replace ((now - rd_last_time d) * 1000000000 * ((u - rc_util cfg) * 100)) with (1000000000 * ((now - rd_last_time d) * (u - rc_util cfg) * 100)) by lia.
    rewrite cdiv_exact by lia. change 10000000 with (100000 * 100).
    replace ((now - rd_last_time d) * (u - rc_util cfg) * 100 * rc_reactivity cfg) with ((now - rd_last_time d) * (u - rc_util cfg) * rc_reactivity cfg * 100) by lia.
    apply cancel_cdiv; lia.
Qed.

(** what suppliers get *)
Lemma accrue_kept now rate cfg d d' :
  rd_ok d -> cfg_bounds cfg -> 0 <= rate < 10000000 -> accrue now rate cfg d = Ok d' ->
  1000000000 * accrued d d' - rd_b_supply d - 1000000000 < claims9 d' - claims9 d + 1000000000 * (rd_credit d' - rd_credit d).
Proof.
  intros W Hc Hr H. pose proof (accrue_spec _ _ _ _ _ W Hc Hr H) as (_ & S1 & S2 & _ & _ & _ & A1 & A2 & _ & A4 & _).
  pose proof (ro_bs _ W) as Hbs.
  destruct (Z.eqb_spec (accrued d d') 0) as [Ez|Ez].
  { rewrite Ez in *. assert (rd_b_rate d' = rd_b_rate d) as Eb by auto. unfold claims9. rewrite S1, Eb, A2, Z.mul_0_l. change (0 / 10000000) with 0. lia. }
  assert (rd_b_supply d <> 0 /\ rd_b_rate d' = (rd_b_supply d * rd_b_rate d / 1000000000 + accrued d d' - (rd_credit d' - rd_credit d)) * 1000000000 / rd_b_supply d) as [Hnz Hb].
  { pose proof H as H0. unfold accrue in H. destruct (Z.eqb_spec now (rd_last_time d)) as [E|E].
    { injection H as <-. exfalso. apply Ez. unfold accrued. lia. }
    destruct (Z.eqb_spec (rd_b_supply d) 0) as [Eb|Eb]. { injection H as <-. exfalso. apply Ez. unfold accrued, debt. cbn [rd_d_supply rd_d_rate set]. apply Z.sub_diag. }
    split; [done|]. apply bind_ok in H as (u & Eu & H). destruct (u =? 0). { injection H as <-. exfalso. apply Ez. unfold accrued, debt. cbn [rd_d_supply rd_d_rate set]. apply Z.sub_diag. }
    apply bind_ok in H as ([la nm] & _ & H). apply bind_ok in H as (pre_s & Es & H). apply bind_ok in H as (pre_l & El & H).
    apply bind_ok in H as (ndr & Er & H). apply bind_ok in H as (post_l & Ep & H). apply bind_ok in H as (acc & Ea & H).
    unfold total_supply, asset_from_b in Es. unfold total_liab, asset_from_d in El, Ep.
    apply fmul_floor_ok in Es as [-> _]; [|vals; lia]. apply fmul_ceil_ok in El as [-> _]; [|vals; lia]. apply fmul_ceil_ok in Ep as [-> _]; [|vals; lia].
    apply i128_ok in Ea as [-> _]. cbn [rd_d_rate rd_d_supply rd_credit rd_b_supply rd_b_rate set] in *.
    destruct (0 <? _) eqn:Ec.
    - apply bind_ok in H as (nc & Enc & H). apply bind_ok in H as (cr & Ecr & H). apply bind_ok in H as (t1 & Et1 & H). apply bind_ok in H as (t2 & Et2 & H).
      apply bind_ok in H as (nbr & Enb & H). injection H as <-. apply i128_ok in Ecr as [-> _]. apply i128_ok in Et1 as [-> _]. apply i128_ok in Et2 as [-> _].
      apply fdiv_floor_ok in Enb as [-> _]; [|lia]. unfold accrued, debt. simpl. vals. do 2 f_equal. simpl. lia.
    - injection H as <-. exfalso. apply Ez. unfold accrued, debt in *. simpl in *. vals. lia. }
  unfold claims9. rewrite S1, Hb.
  set (pre := rd_b_supply d * rd_b_rate d / 1000000000) in *. pose proof (fdiv_spec (rd_b_supply d * rd_b_rate d) 1000000000 ltac:(lia)) as Hp. fold pre in Hp. clearbody pre.
  set (X := pre + accrued d d' - (rd_credit d' - rd_credit d)) in *. pose proof (fdiv_spec (X * 1000000000) (rd_b_supply d) ltac:(lia)) as Hx. lia.
Qed.

(** ** C59: the debt of every borrower grows by the documented rate

    Whenever a transaction brings the interest of a reserve with debt up to date, the dToken rate
    grows by the yearly rate of the curve times the time passed, up to roundings. *)
Theorem C59_interest_rate : forall w o out w' a r d d' cfg,
  reachable w -> exec w o = Ok (out, w') -> reserve w a r = Some d -> reserve w' a r = Some d' ->
  ps_rcfg (pool w a) !! r = Some cfg -> rd_last_time d < rd_last_time d' -> 0 < util_of d ->
  let rate := yearly_rate cfg (q7 (util_of d)) (q9 (rd_ir_mod d)) in
  let y := years (rd_last_time d) (w_now w) in
  let slack := ((q9 (rd_ir_mod d) * (q7 (rc_r_three cfg) + 1) + 2) / 10000000)%Q in
  (inject_Z (rd_d_rate d) * (1 + (y - (1 # 1000000000)) * rate) <= inject_Z (rd_d_rate d') <=
     inject_Z (rd_d_rate d) * (1 + y * (rate + slack) + (1 # 1000000000)) + 1)%Q.
Proof.
  intros w o out w' a r d d' cfg Hr H Hd Hd' Hc Hl Hu. cbv zeta.
  pose proof (init_of_data _ _ _ _ Hr Hd) as G.
  destruct (step_reserve _ _ _ _ _ _ _ _ Hr H Hc Hd) as (d1 & d0 & H1 & Hor & E1 & E2 & _ & E4 & _).
  assert (d1 = d') by congruence. subst d1. rewrite E2. destruct Hor as [->|Hac]; [lia|].
  exact (accrue_curve _ _ _ _ _ (good_rd _ _ _ G Hd) (cw_valid _ (gd_cfg _ G) _ _ Hc) Hac Hu).
Qed.

(** the rate modifier rises while the utilization is above the target, falls while it is below, in
    proportion to the distance, the time and the reactivity, within [0.1, 10]; it changes in no
    other way, except that setting the reserve's configuration may reset it to 1 *)
Theorem C59_rate_modifier : forall w o out w' a r d d' cfg,
  reachable w -> exec w o = Ok (out, w') -> reserve w a r = Some d -> reserve w' a r = Some d' ->
  ps_rcfg (pool w a) !! r = Some cfg ->
  rd_ir_mod d' = (if (rd_last_time d' =? rd_last_time d) || (util_of d =? 0) then rd_ir_mod d
                  else next_modifier cfg (util_of d) (rd_ir_mod d) (w_now w - rd_last_time d)) \/
  (rd_ir_mod d' = 1000000000 /\ exists sg, o = OPool sg a (PSetRes r)).
Proof.
  intros w o out w' a r d d' cfg Hr H Hd Hd' Hc.
  pose proof (init_of_data _ _ _ _ Hr Hd) as G.
  destruct (step_reserve _ _ _ _ _ _ _ _ Hr H Hc Hd) as (d1 & d0 & H1 & Hor & E1 & E2 & E3 & E4 & _).
  assert (d1 = d') by congruence. subst d1. destruct E3 as [E3|E3]; [|by right]. left. rewrite E3, E4.
  destruct Hor as [->|Hac]; [by rewrite Z.eqb_refl|].
  rewrite (accrue_modifier _ _ _ _ _ (good_rd _ _ _ G Hd) (cw_valid _ (gd_cfg _ G) _ _ Hc) Hac), (accrue_last _ _ _ _ _ Hac). done.
Qed.

(** setting a reserve's configuration resets the modifier to 1 exactly if it changes the curve *)
Definition same_curve (c c' : ResConfig) : Prop :=
  rc_r_base c = rc_r_base c' /\ rc_r_one c = rc_r_one c' /\ rc_r_two c = rc_r_two c' /\ rc_r_three c = rc_r_three c' /\ rc_util c = rc_util c'.
Theorem C59_modifier_reset : forall w sg a r out w' cfg d,
  reachable w -> exec w (OPool sg a (PSetRes r)) = Ok (out, w') -> reserve w a r = Some d -> ps_rcfg (pool w a) !! r = Some cfg ->
  exists cfg' d', ps_rcfg (pool w' a) !! r = Some cfg' /\ reserve w' a r = Some d' /\
    (~ same_curve cfg cfg' -> rd_ir_mod d' = 1000000000) /\
    (same_curve cfg cfg' -> rd_ir_mod d' = (if (rd_last_time d' =? rd_last_time d) || (util_of d =? 0) then rd_ir_mod d
                             else next_modifier cfg (util_of d) (rd_ir_mod d) (w_now w - rd_last_time d))).
Proof.
  intros w sg a r out w' cfg d Hr H Hd Hc. pose proof (init_of_data _ _ _ _ Hr Hd) as G.
  apply exec_opool in H as (_ & _ & _ & px & H & Hp' & _ & _). simpl in H. rewrite (gd_init _ G) in H. simpl in H.
  apply bind_ok in H as ([z p1] & E & H). injection H as <- <-. simpl in Hp'. unfold p_set_reserve in E.
  apply bind_ok in E as (q & Eq & E). apply assert_ok in E as [_ E]. simpl in E. unfold initialize_reserve in E. cbn [ps_rcfg] in E.
  apply bind_ok in E as ([idx p2] & E & E'). injection E' as -> <-.
  simpl in E. rewrite Hc in E. apply bind_ok in E as ([r0 ch] & El & E).
  apply load_reserve_fields in El. apply load_res_fields in El as (cfg0 & d0 & Hc0 & Hd0 & Ha & Hi & _ & _ & _ & _ & Hac). simpl in Hc0, Hd0, Hac.
  rewrite Hc in Hc0. injection Hc0 as <-. unfold reserve in Hd. rewrite Hd in Hd0. injection Hd0 as <-.
  apply assert_ok in E as [_ E]. injection E as Eidx <-.
  pose proof (accrue_modifier _ _ _ _ _ (good_rd _ _ _ G Hd) (cw_valid _ (gd_cfg _ G) _ _ Hc) Hac) as Em. pose proof (accrue_last _ _ _ _ _ Hac) as El.
  exists (qr_config q <| rc_index := z |>), (r_data (if ir_changed cfg (qr_config q) then r0 <| r_data := r_data r0 <| rd_ir_mod := SCALAR_9 |> |> else r0)).
  split; [rewrite Hp'; simpl; apply lookup_insert|].
  split. { unfold reserve. rewrite Hp'. simpl. replace (r_asset _) with r by (destruct (ir_changed _ _); done). apply lookup_insert. }
  unfold same_curve. simpl. destruct (ir_changed cfg (qr_config q)) eqn:Ei; unfold ir_changed in Ei.
  - split; [done|]. intros (E1 & E2 & E3 & E4 & E5). rewrite E1, E2, E3, E4, E5, !Z.eqb_refl in Ei. done.
  - split; [|by rewrite Em, El]. intros Hne. exfalso. apply Hne. repeat (apply orb_false_iff in Ei as [Ei ?]).
    rewrite ?negb_false_iff, ?Z.eqb_eq in *. done.
Qed.

(** ** C14: no interest is lost, up to roundings *)
Theorem C14_nothing_lost : forall w o out w' a r d d',
  reachable w -> exec w o = Ok (out, w') -> reserve w a r = Some d -> reserve w' a r = Some d' ->
  let interest := cdiv (rd_d_supply d * rd_d_rate d') 1000000000 - cdiv (rd_d_supply d * rd_d_rate d) 1000000000 in
  let to_backstop := interest * pc_bstop_rate (ps_config (pool w a)) / 10000000 in
  1000000000 * interest - rd_b_supply d - 1000000000 < rd_b_supply d * (rd_b_rate d' - rd_b_rate d) + 1000000000 * to_backstop.
Proof.
  intros w o out w' a r d d' Hr H Hd Hd'. cbv zeta.
  pose proof (init_of_data _ _ _ _ Hr Hd) as G. destruct (proj2 (gd_dom _ G r) (ex_intro _ _ Hd)) as [cfg Hc].
  destruct (step_reserve _ _ _ _ _ _ _ _ Hr H Hc Hd) as (d1 & d0 & H1 & Hor & E1 & E2 & _).
  assert (d1 = d') by congruence. subst d1. rewrite E1, E2. pose proof (ro_bs _ (good_rd _ _ _ G Hd)) as Hbs.
  destruct Hor as [->|Hac]; [rewrite !Z.sub_diag; change (0 * pc_bstop_rate (ps_config (pool w a)) / 10000000) with 0; lia|].
  pose proof (cw_rate _ (gd_cfg _ G)) as Hrate. pose proof (good_rd _ _ _ G Hd) as W. pose proof (cw_valid _ (gd_cfg _ G) _ _ Hc) as V.
  pose proof (accrue_kept _ _ _ _ _ W V Hrate Hac) as K.
  destruct (accrue_spec _ _ _ _ _ W V Hrate Hac) as (_ & S1 & S2 & _ & _ & _ & _ & A2 & _).
  unfold accrued, debt, claims9 in *. rewrite S1, S2 in *. lia.
Qed.
