(** * How fast a debt grows over a whole history (C92) *)
From Coq Require Import QArith Qfield Lqa.
From Verif Require Import Base Types Token Emitter Factory Backstop PoolReserve PoolUser PoolHealth
  PoolAuction PoolSubmit PoolEmis PoolAdmin World Facts XMove Spec PoolFrame PoolCfg PoolAccrue PoolTrace PoolInv AuctionFacts
  PoolSim PoolReq PoolHF PoolOps PoolLiq PoolReach PoolTx FrameFacts PropsPool1 PropsPool2 PropsPool3 PropsPool4 PropsPool5 PropsPool15 PropsPool19.
Local Open Scope Z_scope.

(** ** Specification

    the yearly rate of the documented curve (C59) that a loan of the reserve [r] of the pool at [a]
    pays in the world [w]: it depends on the configuration, the utilization and the rate modifier
    of the moment, and is 0 as long as nothing is lent *)
Definition loan_rate (w : World) (a r : Addr) : Q :=
  match reserve w a r, ps_rcfg (pool w a) !! r with
  | Some d, Some cfg => if util_of d =? 0 then 0%Q else yearly_rate cfg (q7 (util_of d)) (q9 (rd_ir_mod d))
  | _, _ => 0%Q
  end.
(** what the roundings of the rate (to 7 decimals) can add to it in a year *)
Definition rate_rounding (w : World) (a r : Addr) : Q :=
  match reserve w a r, ps_rcfg (pool w a) !! r with
  | Some d, Some cfg => ((q9 (rd_ir_mod d) * (q7 (rc_r_three cfg) + 1) + 2) / 10000000)%Q
  | _, _ => 0%Q
  end.
(** the time to which the interest of the reserve is up to date *)
Definition dated (w : World) (a r : Addr) : option Z := option_map rd_last_time (reserve w a r).
(** how many of the transactions [l] brought the interest of the reserve up to a later date *)
Fixpoint updates (w : World) (a r : Addr) (l : list Op) : Z :=
  match l with
  | [] => 0
  | o :: l' => (if bool_decide (dated (step w o) a r = dated w a r) then 0 else 1) + updates (step w o) a r l'
  end.
(** [P] holds of every world the history [l] passes through *)
Definition throughout (w : World) (l : list Op) (P : World -> Prop) : Prop :=
  forall l1 l2, l = l1 ++ l2 -> P (run w l1).

(** ** Proofs *)
Lemma throughout_cons w o l P : throughout w (o :: l) P -> P w /\ throughout (step w o) l P.
Proof. intros H. split; [apply (H [] (o :: l) eq_refl)|]. intros l1 l2 ->. apply (H (o :: l1) l2 eq_refl). Qed.

Lemma cfg_of_reserve w a r d : reachable w -> reserve w a r = Some d -> exists cfg, ps_rcfg (pool w a) !! r = Some cfg.
Proof. intros Hr Hd. exact (proj2 (gd_dom _ (init_of_data _ _ _ _ Hr Hd) r) (ex_intro _ _ Hd)). Qed.

Lemma years_split x y z : (years x z == years x y + years y z)%Q.
Proof. unfold years. replace (z - x) with ((y - x) + (z - y)) by lia. rewrite inject_Z_plus. unfold Qdiv. ring. Qed.
Lemma years_same x : (years x x == 0)%Q.
Proof. unfold years. rewrite Z.sub_diag. reflexivity. Qed.
Lemma years_pos x y : x < y -> ((1 # 1000000000) <= years x y)%Q.
Proof.
  intros H. unfold years. apply Qle_shift_div_l; [reflexivity|]. assert (1 <= y - x) as H1 by lia. rewrite Zle_Qle in H1.
  eapply Qle_trans; [|exact H1]. by vm_compute.
Qed.
Lemma years_nonneg x y : x <= y -> (0 <= years x y)%Q.
Proof. intros H. unfold years. apply Qle_shift_div_l; [reflexivity|]. rewrite Qmult_0_l. assert (0 <= y - x) as H1 by lia. by rewrite Zle_Qle in H1. Qed.

Lemma loan_rate_nonneg w a r : reachable w -> (0 <= loan_rate w a r)%Q /\ (0 <= rate_rounding w a r)%Q.
Proof.
  intros Hr. unfold loan_rate, rate_rounding. destruct (reserve w a r) as [d|] eqn:Hd; [|split; apply Qle_refl].
  destruct (ps_rcfg (pool w a) !! r) as [cfg|] eqn:Hc; [|split; apply Qle_refl].
  pose proof (init_of_data _ _ _ _ Hr Hd) as G. pose proof (good_rd _ _ _ G Hd) as W. pose proof (cw_valid _ (gd_cfg _ G) _ _ Hc) as Hcb. pose proof (ro_ir _ W) as Him.
  split.
  - destruct (Z.eqb_spec (util_of d) 0) as [Hz|Hz]; [apply Qle_refl|]. apply yearly_rate_nonneg; [done| |lia].
    destruct W as [Hd0 Hb0 _ Hbs Hds]. vals. unfold util_of in *. destruct (Z.eqb_spec (rd_b_supply d) 0); [lia|].
    assert (0 <= cdiv (cdiv (rd_d_supply d * rd_d_rate d) 1000000000 * 10000000) (rd_b_supply d * rd_b_rate d / 1000000000)); [|lia].
    assert (0 < rd_b_supply d * rd_b_rate d / 1000000000) by (apply Z.div_str_pos; nia).
    apply cdiv_nonneg; [lia|]. pose proof (cdiv_nonneg (rd_d_supply d * rd_d_rate d) 1000000000 ltac:(lia) ltac:(nia)). lia.
  - destruct Hcb as (_ & _ & _ & _ & _ & _ & H2 & H3 & _).
    assert (0 <= q9 (rd_ir_mod d))%Q as A by (apply q9_nonneg; lia). assert (0 <= q7 (rc_r_three cfg))%Q as B by (apply q7_nonneg; lia).
    apply Qle_shift_div_l; [reflexivity|]. pose proof (Qmult_le_0_compat _ _ A B). lra.
Qed.

Lemma round_up_one (d x : Q) : (1000000000 <= d -> d * (1 + x + (1 # 1000000000)) + 1 <= d * (1 + (x + (2 # 1000000000))))%Q.
Proof. intros H. setoid_replace (d * (1 + (x + (2 # 1000000000))))%Q with (d * (1 + x + (1 # 1000000000)) + d * (1 # 1000000000))%Q by ring. lra. Qed.
(** one transaction *)
Lemma growth_step w o a r d :
  reachable w -> reserve w a r = Some d ->
  exists d', reserve (step w o) a r = Some d' /\ rd_last_time d <= rd_last_time d' /\ 1000000000 <= rd_d_rate d /\
    (rd_last_time d' = rd_last_time d -> rd_d_rate d' = rd_d_rate d) /\
    (rd_last_time d < rd_last_time d' ->
     (inject_Z (rd_d_rate d') <= inject_Z (rd_d_rate d) * (1 + (years (rd_last_time d) (rd_last_time d') * (loan_rate w a r + rate_rounding w a r) + (2 # 1000000000))))%Q /\
     (inject_Z (rd_d_rate d) * (1 + (years (rd_last_time d) (rd_last_time d') - (1 # 1000000000)) * loan_rate w a r) <= inject_Z (rd_d_rate d'))%Q).
Proof.
  intros Hr Hd. pose proof (init_of_data _ _ _ _ Hr Hd) as G. pose proof (good_rd _ _ _ G Hd) as W. pose proof (ro_d _ W) as Hd9. vals.
  unfold step. destruct (exec w o) as [[out w']|] eqn:E; swap 1 2.
  { exists d. split; [done|]. split; [lia|]. split; [done|]. split; [done|]. intros. lia. }
  destruct (cfg_of_reserve _ _ _ _ Hr Hd) as [cfg Hc]. pose proof (cw_valid _ (gd_cfg _ G) _ _ Hc) as Hcb.
  destruct (step_reserve _ _ _ _ _ _ _ _ Hr E Hc Hd) as (d' & d0 & Hd' & Hor & E1 & E2 & _ & E4 & _ & Hs).
  exists d'. split; [done|]. rewrite E2, E4.
  destruct Hor as [->|Hac]. { split; [lia|]. split; [done|]. split; [done|]. lia. }
  pose proof (accrue_last _ _ _ _ _ Hac) as El. pose proof (last_le _ _ _ _ Hr Hd) as Hle. rewrite El.
  split; [done|]. split; [done|]. split.
  { intros En. destruct (accrue_cases _ _ _ _ _ W Hac) as [(Er & _)|(Hn & _)]; [done|by destruct Hn]. }
  intros Hlt. destruct (loan_rate_nonneg w a r Hr) as [L1 L2]. pose proof (years_pos _ _ Hlt) as Hy.
  assert (1000000000 <= inject_Z (rd_d_rate d))%Q as Hdq by (rewrite Zle_Qle in Hd9; exact Hd9).
  unfold loan_rate, rate_rounding in *. rewrite Hd, Hc in *.
  destruct (Z.eqb_spec (util_of d) 0) as [Hz|Hz].
  - assert (rd_d_rate d0 = rd_d_rate d) as ->. { destruct (accrue_cases _ _ _ _ _ W Hac) as [(Er & _)|(_ & Hu & _)]; [done|lia]. }
    match goal with |- context [(0 + ?s)%Q] => set (sl := s) in * end. set (y := years _ _) in *. clearbody sl y.
    assert (0 <= y * sl)%Q by (apply Qmult_le_0_compat; lra). split; [|lra].
    assert (0 <= inject_Z (rd_d_rate d) * (y * sl))%Q by (apply Qmult_le_0_compat; lra). lra.
  - assert (0 < util_of d) as Hu. { destruct (accrue_cases _ _ _ _ _ W Hac) as [(Er & [Hx|Hx])|(_ & Hu & _)]; [lia|lia|done]. }
    destruct (accrue_curve _ _ _ _ _ W Hcb Hac Hu) as [C1 C2]. split; [|exact C1]. eapply Qle_trans; [exact C2|]. by apply round_up_one.
Qed.

Lemma compound_upper (d0 d1 d2 x y : Q) :
  (0 < d0 -> 0 <= x -> 0 <= y -> d1 <= d0 * (1 + x) -> d2 * (1 - y) <= d1 -> 0 <= d2 -> d2 * (1 - (x + y)) <= d0)%Q.
Proof.
  intros H0 Hx Hy H1 H2 Hd. destruct (Qlt_le_dec (x + y) 1) as [Hl|Hl].
  - assert (d2 * (1 - y) <= d0 * (1 + x))%Q as H3 by lra.
    assert (d2 * (1 - y) * (1 - (x + y)) <= d0 * (1 + x) * (1 - (x + y)))%Q as H4 by (apply Qmult_le_compat_r; lra).
    assert (0 <= x * y)%Q by (apply Qmult_le_0_compat; done). assert (0 <= x * x)%Q by (apply Qmult_le_0_compat; done).
    assert ((1 + x) * (1 - (x + y)) <= 1 - y)%Q as H7.
    { setoid_replace ((1 + x) * (1 - (x + y)))%Q with (1 - y - (x * y + x * x))%Q by ring. lra. }
    pose proof (proj2 (Qmult_le_l _ _ d0 H0) H7) as H9.
    assert (d2 * (1 - (x + y)) * (1 - y) <= d0 * (1 - y))%Q as H6 by lra.
    apply Qmult_le_r in H6; [done|lra].
  - assert (0 <= d2 * ((x + y) - 1))%Q by (apply Qmult_le_0_compat; lra). lra.
Qed.
Lemma compound_lower (d0 d1 d2 x y : Q) :
  (0 < d0 -> 0 <= x -> 0 <= y -> d0 * (1 + x) <= d1 -> d1 * (1 + y) <= d2 -> d0 * (1 + (x + y)) <= d2)%Q.
Proof.
  intros H0 Hx Hy H1 H2.
  assert (d0 * (1 + x) * (1 + y) <= d1 * (1 + y))%Q by (apply Qmult_le_compat_r; lra).
  assert (0 <= x * y)%Q by (apply Qmult_le_0_compat; done). assert (0 <= d0 * (x * y))%Q by (apply Qmult_le_0_compat; lra). lra.
Qed.
Lemma compound_lower_ext (d0 d2 z z' : Q) : (z == z' -> d0 * (1 + z) <= d2 -> d0 * (1 + z') <= d2)%Q.
Proof. intros E H. rewrite <- E. exact H. Qed.
Lemma compound_upper_ext (d0 d2 z z' : Q) : (z == z' -> d2 * (1 - z) <= d0 -> d2 * (1 - z') <= d0)%Q.
Proof. intros E H. rewrite <- E. exact H. Qed.

Lemma updates_nonneg a r l : forall w, 0 <= updates w a r l.
Proof. induction l as [|o l IH]; intros w; [done|]. cbn [updates]. specialize (IH (step w o)). case_bool_decide; lia. Qed.

Lemma updates_cons w a r o l d d1 : reserve w a r = Some d -> reserve (step w o) a r = Some d1 ->
  updates w a r (o :: l) = (if rd_last_time d1 =? rd_last_time d then 0 else 1) + updates (step w o) a r l.
Proof.
  intros Hd Hd1. cbn [updates]. f_equal. unfold dated. case_bool_decide as H; rewrite Hd, Hd1 in H; cbn [option_map] in H.
  - injection H as ->. by rewrite Z.eqb_refl.
  - destruct (Z.eqb_spec (rd_last_time d1) (rd_last_time d)) as [E|E]; [rewrite E in H; done|done].
Qed.

(** ** C92: how fast a debt grows over a whole history

    Over any history the dToken rate of a reserve, which is what every borrower owes per dToken,
    grows no faster than by simple interest on the final rate, at the highest rate of the curve that
    the history passes through, plus 2e-9 for each transaction that updates the interest; and no
    slower than by simple interest on the first rate, at the lowest rate that it passes through,
    less a thousandth of a millionth of a year's interest for each such transaction. *)
Theorem C92_debt_growth : forall l w a r d R,
  reachable w -> reserve w a r = Some d -> (0 <= R)%Q ->
  throughout w l (fun v => (loan_rate v a r + rate_rounding v a r <= R)%Q) ->
  exists d', reserve (run w l) a r = Some d' /\ rd_last_time d <= rd_last_time d' /\
    (inject_Z (rd_d_rate d') * (1 - (years (rd_last_time d) (rd_last_time d') * R + inject_Z (updates w a r l) * (2 # 1000000000))) <= inject_Z (rd_d_rate d))%Q.
Proof.
  induction l as [|o l IH]; intros w a r d R Hr Hd HR Ht.
  { exists d. split; [done|]. split; [lia|]. apply (compound_upper_ext _ _ 0); [cbn [updates]; rewrite years_same; change (inject_Z 0) with 0%Q; ring|]. setoid_replace (inject_Z (rd_d_rate d) * (1 - 0))%Q with (inject_Z (rd_d_rate d)) by ring. apply Qle_refl. }
  apply throughout_cons in Ht as [Hw Ht]. cbn [run].
  destruct (growth_step w o a r d Hr Hd) as (d1 & Hd1 & Hle & H9 & Hsame & Hgrow).
  assert (reachable (step w o)) as Hr1 by (exact (reachable_run w [o] Hr)).
  destruct (IH _ a r d1 R Hr1 Hd1 HR Ht) as (d' & Hd' & Hle' & Hb). exists d'. split; [done|]. split; [lia|].
  rewrite (updates_cons _ _ _ _ _ _ _ Hd Hd1).
  pose proof (updates_nonneg a r l (step w o)) as Hn. set (n := updates (step w o) a r l) in *. clearbody n.
  destruct (Z.eqb_spec (rd_last_time d1) (rd_last_time d)) as [Hb0|Hb0].
  - rewrite <- (Hsame Hb0), <- Hb0. exact Hb.
  - assert (rd_last_time d < rd_last_time d1) as Hlt by lia.
    destruct (Hgrow Hlt) as [Hup _]. pose proof (years_nonneg _ _ Hle') as Y2. pose proof (years_pos _ _ Hlt) as Y1.
    destruct (loan_rate_nonneg w a r Hr) as [L1 L2].
    pose proof (years_split (rd_last_time d) (rd_last_time d1) (rd_last_time d')) as Hsp.
    assert (0 <= inject_Z n)%Q as Hnq by (rewrite Zle_Qle in Hn; exact Hn).
    assert (1000000000 <= inject_Z (rd_d_rate d))%Q as Hdq by (rewrite Zle_Qle in H9; exact H9).
    assert (0 <= inject_Z (rd_d_rate d'))%Q as Hdq'.
    { pose proof (init_of_data _ _ _ _ (reachable_run (step w o) l Hr1) Hd') as G'. pose proof (ro_d _ (good_rd _ _ _ G' Hd')) as Hx. vals. change 0%Q with (inject_Z 0). rewrite <- Zle_Qle. lia. }
    set (y1 := years (rd_last_time d) (rd_last_time d1)) in *. set (y2 := years (rd_last_time d1) (rd_last_time d')) in *. clearbody y1 y2.
    set (lr := (loan_rate w a r + rate_rounding w a r)%Q) in *. assert (0 <= lr)%Q as Hlr by (unfold lr; lra). clearbody lr.
    apply (compound_upper_ext _ _ ((y1 * R + (2 # 1000000000)) + (y2 * R + inject_Z n * (2 # 1000000000)))).
    { rewrite Hsp, inject_Z_plus. ring. }
    assert (0 <= y1 * R)%Q by (apply Qmult_le_0_compat; lra). assert (0 <= y2 * R)%Q by (apply Qmult_le_0_compat; lra).
    apply (compound_upper _ (inject_Z (rd_d_rate d1))); [lra|lra|lra| |exact Hb|done].
    eapply Qle_trans; [exact Hup|]. apply Qmult_le_l; [lra|]. assert (y1 * lr <= y1 * R)%Q by (apply Qmult_le_l; lra). lra.
Qed.

Theorem C92_debt_growth_least : forall l w a r d R,
  reachable w -> reserve w a r = Some d -> (0 <= R)%Q -> throughout w l (fun v => (R <= loan_rate v a r)%Q) ->
  exists d', reserve (run w l) a r = Some d' /\ rd_last_time d <= rd_last_time d' /\
    (inject_Z (rd_d_rate d) * (1 + (years (rd_last_time d) (rd_last_time d') - inject_Z (updates w a r l) * (1 # 1000000000)) * R) <= inject_Z (rd_d_rate d'))%Q.
Proof.
  intros l w a r d R Hr Hd HR Ht.
  assert (exists d', reserve (run w l) a r = Some d' /\ rd_last_time d <= rd_last_time d' /\
    (0 <= years (rd_last_time d) (rd_last_time d') - inject_Z (updates w a r l) * (1 # 1000000000))%Q /\
    (inject_Z (rd_d_rate d) * (1 + (years (rd_last_time d) (rd_last_time d') - inject_Z (updates w a r l) * (1 # 1000000000)) * R) <= inject_Z (rd_d_rate d'))%Q) as (d' & ? & ? & _ & ?); [|by exists d'].
  revert w d Hr Hd Ht. induction l as [|o l IH]; intros w d Hr Hd Ht.
  { exists d. split; [done|]. split; [lia|]. cbn [updates]. pose proof (years_same (rd_last_time d)) as Hs. change (inject_Z 0) with 0%Q. split; [lra|].
    apply (compound_lower_ext _ _ 0); [rewrite Hs; ring|]. setoid_replace (inject_Z (rd_d_rate d) * (1 + 0))%Q with (inject_Z (rd_d_rate d)) by ring. apply Qle_refl. }
  apply throughout_cons in Ht as [Hw Ht]. cbn [run].
  destruct (growth_step w o a r d Hr Hd) as (d1 & Hd1 & Hle & H9 & Hsame & Hgrow).
  assert (reachable (step w o)) as Hr1 by (exact (reachable_run w [o] Hr)).
  destruct (IH _ d1 Hr1 Hd1 Ht) as (d' & Hd' & Hle' & Hp & Hb). exists d'. split; [done|]. split; [lia|].
  rewrite (updates_cons _ _ _ _ _ _ _ Hd Hd1).
  set (n := updates (step w o) a r l) in *. clearbody n.
  destruct (Z.eqb_spec (rd_last_time d1) (rd_last_time d)) as [Hb0|Hb0].
  - rewrite <- (Hsame Hb0), <- Hb0. done.
  - assert (rd_last_time d < rd_last_time d1) as Hlt by lia.
    destruct (Hgrow Hlt) as [_ Hup]. pose proof (years_pos _ _ Hlt) as Y1.
    pose proof (years_split (rd_last_time d) (rd_last_time d1) (rd_last_time d')) as Hsp.
    assert (1000000000 <= inject_Z (rd_d_rate d))%Q as Hdq by (rewrite Zle_Qle in H9; exact H9).
    set (y1 := years (rd_last_time d) (rd_last_time d1)) in *. set (y2 := years (rd_last_time d1) (rd_last_time d')) in *. set (y := years (rd_last_time d) (rd_last_time d')) in *. clearbody y1 y2 y.
    change (if false then 0 else 1) with 1. pose proof (inject_Z_plus 1 n) as Hn1. change (inject_Z 1) with 1%Q in Hn1. rewrite Hn1. split; [lra|].
    apply (compound_lower_ext _ _ ((y1 - (1 # 1000000000)) * R + (y2 - inject_Z n * (1 # 1000000000)) * R)).
    { rewrite Hsp. ring. }
    apply (compound_lower _ (inject_Z (rd_d_rate d1))); [lra|apply Qmult_le_0_compat; lra|apply Qmult_le_0_compat; lra| |exact Hb].
    eapply Qle_trans; [|exact Hup]. apply Qmult_le_l; [lra|].
    assert ((y1 - (1 # 1000000000)) * R <= (y1 - (1 # 1000000000)) * loan_rate w a r)%Q; [|lra].
    destruct (Qlt_le_dec 0 (y1 - (1 # 1000000000))) as [Hx|Hx]; [by apply Qmult_le_l|].
    assert (y1 - (1 # 1000000000) == 0)%Q as -> by lra. lra.
Qed.

(** As long as the utilization is at most 100 percent, no reserve ever pays more than ten times the
    sum of its base rate and its first two slopes, plus its third slope, a year, whatever has
    happened before; the roundings of a rate add less than a few millionths. *)
Definition worst_rate (cfg : ResConfig) : Q :=
  (10 * (q7 (rc_r_base cfg) + q7 (rc_r_one cfg) + q7 (rc_r_two cfg)) + q7 (rc_r_three cfg))%Q.
Theorem C92_worst_rate : forall w a r d cfg,
  reachable w -> reserve w a r = Some d -> ps_rcfg (pool w a) !! r = Some cfg -> util_of d <= 10000000 ->
  (loan_rate w a r <= worst_rate cfg)%Q /\
  (rate_rounding w a r <= (10 * (q7 (rc_r_three cfg) + 1) + 2) / 10000000)%Q.
Proof.
  intros w a r d cfg Hr Hd Hc Hu. unfold loan_rate, rate_rounding, worst_rate. rewrite Hd, Hc.
  pose proof (init_of_data _ _ _ _ Hr Hd) as G. pose proof (good_rd _ _ _ G Hd) as W. pose proof (cw_valid _ (gd_cfg _ G) _ _ Hc) as Hcb. pose proof (ro_ir _ W) as Him.
  destruct Hcb as (_ & _ & _ & Ht & _ & Hb & H1 & H2 & _).
  assert (0 <= q9 (rd_ir_mod d))%Q as Qm0 by (apply q9_nonneg; lia).
  assert (q9 (rd_ir_mod d) <= 10)%Q as Qm. { assert (rd_ir_mod d <= 10000000000) as Hx by lia. rewrite Zle_Qle in Hx. pose proof (q9_mul (rd_ir_mod d)). change (inject_Z 10000000000) with (10000000000 # 1)%Q in Hx. lra. }
  assert (0 <= q7 (rc_r_base cfg))%Q as Q0 by (apply q7_nonneg; lia). assert (0 <= q7 (rc_r_one cfg))%Q as Q1 by (apply q7_nonneg; lia).
  assert (0 <= q7 (rc_r_two cfg))%Q as Q2 by (apply q7_nonneg; lia). assert (0 <= q7 (rc_r_three cfg))%Q as Q3 by (apply q7_nonneg; lia).
  assert (q7 (util_of d) <= 1)%Q as Qu. { rewrite Zle_Qle in Hu. pose proof (q7_mul (util_of d)). change (inject_Z 10000000) with (10000000 # 1)%Q in Hu. lra. }
  assert (0 <= q7 (rc_util cfg))%Q as Qt by (apply q7_nonneg; lia).
  assert (q7 (rc_util cfg) <= 95 # 100)%Q as Qt1. { assert (rc_util cfg <= 9500000) as Hx by lia. rewrite Zle_Qle in Hx. pose proof (q7_mul (rc_util cfg)). change (inject_Z 9500000) with (9500000 # 1)%Q in Hx. lra. }
  set (m := q9 _) in *. set (b := q7 (rc_r_base cfg)) in *. set (r1 := q7 (rc_r_one cfg)) in *. set (r2 := q7 (rc_r_two cfg)) in *. set (r3 := q7 (rc_r_three cfg)) in *.
  assert (forall x y : Q, (0 <= x)%Q -> (x <= y)%Q -> (x * m <= 10 * y)%Q) as Hmul.
  { intros x y Hx Hxy. apply (Qle_trans _ (x * 10)); [|lra]. rewrite !(Qmult_comm x). by apply Qmult_le_compat_r. }
  split.
  - destruct (Z.eqb_spec (util_of d) 0) as [Hz|Hz]; [lra|].
    assert (forall z f : Q, (0 <= f)%Q -> (z <= 1)%Q -> (z * f <= f)%Q) as Hfrac.
    { intros z f Hf Hz1. assert (z * f <= 1 * f)%Q by (by apply Qmult_le_compat_r). lra. }
    unfold yearly_rate. fold b r1 r2 r3 m. set (u := q7 (util_of d)) in *. set (t := q7 (rc_util cfg)) in *.
    assert (forall x y : Q, (x <= y)%Q -> (x * m <= y * m)%Q) as Hmono by (intros x y Hxy; by apply Qmult_le_compat_r).
    destruct (Qle_bool u t) eqn:Eu.
    + apply Qle_bool_iff in Eu.
      assert (u / t <= 1)%Q as Hf.
      { destruct (Qlt_le_dec 0 t) as [Hpos|Hneg]; [apply Qle_shift_div_r; [done|lra]|]. assert (t == 0)%Q as -> by lra. unfold Qdiv. change (/ 0)%Q with 0%Q. lra. }
      pose proof (Hfrac _ r1 Q1 Hf). apply (Qle_trans _ ((b + r1) * m)); [apply Hmono; lra|].
      pose proof (Hmul (b + r1)%Q (b + r1 + r2)%Q ltac:(lra) ltac:(lra)). lra.
    + assert (t < u)%Q as Htu. { destruct (Qlt_le_dec t u) as [Hl|Hl]; [done|]. apply Qle_bool_iff in Hl. congruence. }
      destruct (Qle_bool u (95 # 100)) eqn:E95.
      * apply Qle_bool_iff in E95. assert ((u - t) / ((95 # 100) - t) <= 1)%Q as Hf by (apply Qle_shift_div_r; lra).
        pose proof (Hfrac _ r2 Q2 Hf). apply (Qle_trans _ ((b + r1 + r2) * m)); [apply Hmono; lra|].
        pose proof (Hmul (b + r1 + r2)%Q (b + r1 + r2)%Q ltac:(lra) ltac:(lra)). lra.
      * assert ((u - (95 # 100)) / (5 # 100) <= 1)%Q as Hf by (apply Qle_shift_div_r; [reflexivity|lra]).
        pose proof (Hfrac _ r3 Q3 Hf). pose proof (Hmul (b + r1 + r2)%Q (b + r1 + r2)%Q ltac:(lra) ltac:(lra)). lra.
  - unfold Qdiv. apply Qmult_le_compat_r; [|apply Qle_bool_iff; reflexivity].
    assert (m * (r3 + 1) <= 10 * (r3 + 1))%Q by (apply Qmult_le_compat_r; lra). lra.
Qed.
