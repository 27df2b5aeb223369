(** * How long an account stays safe (C94) *)
From Coq Require Import QArith Qfield Lqa.
From Verif Require Import Base Types Token Emitter Factory Backstop PoolReserve PoolUser PoolHealth
  PoolAuction PoolSubmit PoolEmis PoolAdmin World Facts XMove Spec PoolFrame PoolCfg PoolAccrue PoolTrace PoolInv AuctionFacts
  PoolSim PoolReq PoolHF PoolOps PoolLiq PoolReach PoolTx FrameFacts PropsAdmin PropsAdmin2 PropsAdmin3 PropsPool1 PropsPool2 PropsPool3 PropsPool4 PropsPool5 PropsPool14 PropsPool15 PropsPool19
  PropsPool30 PropsPool36 PropsPool38 PropsPool39.
Local Open Scope Z_scope.

(** ** Specification *)
(** the account's weighted debt if a dToken of each asset were worth [top] of it (9 decimals) *)
Definition debt_at (w : World) (a u : Addr) (top : Addr -> Z) : Z :=
  over_reserves (pool w a) (fun i r => cdiv (quote w a (x_orc (w_ext w)) r * cdiv (cdiv (liab_of w a u i * top r) 1000000000 * 10000000) (rc_l_factor (cfg_of (pool w a) r))) (10 ^ rc_decimals (cfg_of (pool w a) r))).
(** its weighted collateral at the stored bToken rates, that is without interest not yet accounted for *)
Definition coll_stored (w : World) (a u : Addr) : Z :=
  over_reserves (pool w a) (fun i r => quote w a (x_orc (w_ext w)) r * (coll_of w a u i * match reserve w a r with Some d => rd_b_rate d | None => 0 end / 1000000000 * rc_c_factor (cfg_of (pool w a) r) / 10000000) / 10 ^ rc_decimals (cfg_of (pool w a) r)).
(** no queued reserve change of the pool takes effect *)
Definition unchanged (a : Addr) (l : list Op) : Prop := forall sg r, OPool sg a (PSetRes r) ∉ l.
(** the interest that a loan of [r] can have gathered since its rate was stored, in time up to the
    moment of [w'], at the yearly rate [R], with [n] updates (C92) *)
Definition interest_cap (w w' : World) (a r : Addr) (R : Q) (n : Z) : Q :=
  match reserve w a r with Some d => (years (rd_last_time d) (w_now w') * R + inject_Z n * (2 # 1000000000))%Q | None => 0%Q end.

(** ** Proofs *)
Lemma unchanged_snoc a l o : unchanged a (l ++ [o]) -> unchanged a l.
Proof. intros H sg r Hin. apply (H sg r). apply elem_of_app. by left. Qed.
Lemma cfg_unchanged a l : forall w, unchanged a l -> forall r, res_cfg (run w l) a r = res_cfg w a r.
Proof.
  induction l as [|o l IH]; intros w H r; [done|]. cbn [run]. rewrite IH by (intros sg r' Hin; apply (H sg r'); by right).
  unfold step. destruct (exec w o) as [[out w']|] eqn:E; [|done].
  destruct (decide (res_cfg w' a r = res_cfg w a r)) as [|Hne]; [done|]. apply (exec_pool _ _ _ _ a) in E. destruct (rcfg_step _ _ _ _ _ _ E Hne) as (sg & q & i & -> & _). exfalso. apply (H sg r). left.
Qed.
Lemma list_unchanged a l w : reachable w -> unchanged a l -> reserve_list (run w l) a = reserve_list w a.
Proof.
  intros Hr H. pose proof (C29_reserve_list_bijection w a Hr) as (_ & _ & B1). pose proof (C29_reserve_list_bijection (run w l) a (reachable_run _ _ Hr)) as (_ & _ & B2).
  unfold reserve_list. apply list_eq. intros i. apply option_eq. intros r. rewrite B1, B2. by rewrite (cfg_unchanged a l w H r).
Qed.

(** the interest accrued since the last update *)
Lemma rates_now w a r d : reachable w -> reserve w a r = Some d ->
  rd_b_rate d <= b_rate_now w a r /\ rd_d_rate d <= d_rate_now w a r /\ rd_last_time d <= w_now w /\
  (inject_Z (d_rate_now w a r) <= inject_Z (rd_d_rate d) * (1 + (years (rd_last_time d) (w_now w) * (loan_rate w a r + rate_rounding w a r) + (2 # 1000000000))))%Q.
Proof.
  intros Hr Hd. pose proof (init_of_data _ _ _ _ Hr Hd) as G. pose proof (good_rd _ _ _ G Hd) as W. pose proof (ro_d _ W) as Hd9. vals.
  destruct (cfg_of_reserve _ _ _ _ Hr Hd) as [cfg Hc]. pose proof (cw_valid _ (gd_cfg _ G) _ _ Hc) as Hcb. pose proof (last_le _ _ _ _ Hr Hd) as Hle.
  destruct (loan_rate_nonneg w a r Hr) as [L1 L2]. pose proof (years_nonneg _ _ Hle) as Hy.
  assert (1000000000 <= inject_Z (rd_d_rate d))%Q as Hdq by (rewrite Zle_Qle in Hd9; exact Hd9).
  assert (inject_Z (rd_d_rate d) <= inject_Z (rd_d_rate d) * (1 + (years (rd_last_time d) (w_now w) * (loan_rate w a r + rate_rounding w a r) + (2 # 1000000000))))%Q as Hbase.
  { set (y := years _ _) in *. set (lr := (loan_rate w a r + rate_rounding w a r)%Q). assert (0 <= lr)%Q by (unfold lr; lra). clearbody y lr.
    assert (0 <= y * lr)%Q by (by apply Qmult_le_0_compat). assert (0 <= inject_Z (rd_d_rate d) * (y * lr))%Q by (apply Qmult_le_0_compat; lra). lra. }
  unfold b_rate_now, d_rate_now, data_at. unfold reserve in Hd. rewrite Hc, Hd.
  destruct (accrue _ _ _ _) as [d0|e] eqn:Hac; [|split; [lia|]; split; [lia|]; by split].
  pose proof (accrue_spec _ _ _ _ _ W Hcb (cw_rate _ (gd_cfg _ G)) Hac) as (_ & _ & _ & _ & A5 & A6 & _).
  split; [done|]. split; [done|]. split; [done|].
  destruct (accrue_cases _ _ _ _ _ W Hac) as [(Er & _)|(_ & Hu & _)]; [by rewrite Er|].
  destruct (accrue_curve _ _ _ _ _ W Hcb Hac Hu) as [_ C2]. eapply Qle_trans; [exact C2|].
  unfold loan_rate, rate_rounding, reserve. rewrite Hc, Hd. destruct (Z.eqb_spec (util_of d) 0); [lia|]. by apply round_up_one.
Qed.

(** ** C94: the account is safe while the rates of its debts stay below what its margin allows

    [top] gives, for each asset, a value of its dToken such that the account's collateral, without
    any future interest on it, still covers its debts at these values.  As long as no dToken of its
    debts is worth more than that, no quote turns against it and no queued reserve change takes
    effect, nobody can start a liquidation of the account or change its positions, however much
    time passes, and whatever everybody else does. *)
Theorem C94_margin : forall w l a u top,
  reachable w -> ps_init (pool w a) = true -> u <> ps_backstop (pool w a) -> auction w a 0 u = None ->
  (forall o, o ∈ l -> u ∉ signers o) -> unchanged a l ->
  (forall i r, reserve_list w a !! i = Some r -> 0 <= quote w a (x_orc (w_ext w)) r) -> (forall orc, OOracle orc ∈ l -> no_worse w a u orc) ->
  throughout w l (fun v => forall i r, reserve_list w a !! i = Some r -> liab_of w a u (Z.of_nat i) <> 0 -> d_rate_now v a r <= top r) ->
  debt_at w a u top < coll_stored w a u ->
  positions (run w l) a u = positions w a u /\ auction (run w l) a 0 u = None /\
  0 <= weighted_debt (run w l) a u <= debt_at w a u top /\ coll_stored w a u <= weighted_coll (run w l) a u /\
  forall sg pct, ~ succeeds (run w l) (OPool sg a (PNewLiq u pct)).
Proof.
  intros w l a u top Hr Hi Hb Hau Hu Hl Hq0 Hq Ht Hm.
  assert (forall l1, unchanged a l1 -> (forall orc, OOracle orc ∈ l1 -> no_worse w a u orc) ->
    (forall i r, reserve_list w a !! i = Some r -> liab_of w a u (Z.of_nat i) <> 0 -> d_rate_now (run w l1) a r <= top r) ->
    positions (run w l1) a u = positions w a u ->
    0 <= weighted_debt (run w l1) a u <= debt_at w a u top /\ coll_stored w a u <= weighted_coll (run w l1) a u) as Hval.
  { clear Hl Hq Ht Hu Hm Hau. intros l1 Hl Ho Ht Hp. pose proof (list_unchanged a l1 w Hr Hl) as HL. unfold reserve_list in HL.
    assert (forall r, cfg_of (pool (run w l1) a) r = cfg_of (pool w a) r) as Hc. { intros r. pose proof (cfg_unchanged a l1 w Hl r) as E. unfold res_cfg in E. unfold cfg_of. by rewrite E. }
    destruct (proj2 (proj2 (proj2 (C61_initialized_once w l1))) a Hi) as (_ & _ & _ & Hpo).
    assert (good (pool w a)) as G by (by apply reachable_good). assert (reachable (run w l1)) as Hr1 by (by apply reachable_run).
    assert (forall r, price_of (pool (run w l1) a) (w_ext (run w l1)) r = quote w a (x_orc (w_ext (run w l1))) r) as Q2.
    { intros r. unfold price_of, quote. rewrite Hpo. by destruct (_ !! _) as [[]|]. }
    assert (no_worse w a u (x_orc (w_ext (run w l1)))) as Hnw.
    { destruct (orc_run l1 w) as [->|E]; [|by apply Ho]. intros k r Hk. specialize (Hq0 _ _ Hk). split; intros _; lia. }
    assert (forall i r, (i, r) ∈ indexed 0 (ps_list (pool w a)) -> exists k d, i = Z.of_nat k /\ reserve_list w a !! k = Some r /\ reserve w a r = Some d /\
      0 < 10 ^ rc_decimals (cfg_of (pool w a) r) /\ 0 <= rc_c_factor (cfg_of (pool w a) r) /\ 0 <= rc_l_factor (cfg_of (pool w a) r) /\
      1000000000 <= rd_b_rate d <= b_rate_now (run w l1) a r /\ 0 <= d_rate_now (run w l1) a r) as HR.
    { intros i r Hin. apply indexed_in in Hin as [Hi0 Hin]. rewrite Z.sub_0_r in Hin. exists (Z.to_nat i).
      destruct (cw_idx _ (gd_cfg _ G) _ _ Hin) as (cfg & Hcfg & _). destruct (cw_valid _ (gd_cfg _ G) _ _ Hcfg) as (B1 & B2 & B3 & _).
      destruct (proj1 (gd_dom _ G r) (ex_intro _ _ Hcfg)) as [d Hd]. exists d. split; [lia|]. split; [exact Hin|]. split; [exact Hd|]. unfold cfg_of. rewrite Hcfg. cbn [default from_option id].
      split; [apply Z.pow_pos_nonneg; lia|]. split; [lia|]. split; [lia|].
      destruct (C04_rates_never_decrease w l1 a r d Hr Hd) as (d' & Hd' & [Hb1 Hb2] & [Hd1 Hd2]).
      destruct (rates_now _ _ _ _ Hr1 Hd') as (R1 & R2 & _). lia. }
    assert (forall i, 0 <= get_coll (positions w a u) i /\ 0 <= get_liab (positions w a u) i) as HP.
    { intros i. split; apply pos_ok_getz with (k := KColl) || apply pos_ok_getz with (k := KLiab); apply G. }
    assert (forall i r, (i, r) ∈ indexed 0 (ps_list (pool w a)) ->
      0 <= liab_eff1 (w_now (run w l1)) (pool (run w l1) a) (w_ext (run w l1)) r (get_liab (positions w a u) i) <=
      cdiv (quote w a (x_orc (w_ext w)) r * cdiv (cdiv (liab_of w a u i * top r) 1000000000 * 10000000) (rc_l_factor (cfg_of (pool w a) r))) (10 ^ rc_decimals (cfg_of (pool w a) r))) as HD.
    { intros i r Hin. destruct (HR i r Hin) as (k & d & -> & Hk & Hd & P10 & P1 & P2 & P3 & P4). destruct (HP (Z.of_nat k)) as [_ HP2].
      unfold liab_eff1, d_assets. rewrite Hc, Q2. change (rd_d_rate (data_at (w_now (run w l1)) (pool (run w l1) a) r)) with (d_rate_now (run w l1) a r).
      change (liab_of w a u (Z.of_nat k)) with (get_liab (positions w a u) (Z.of_nat k)).
      specialize (Ht k r Hk). change (liab_of w a u (Z.of_nat k)) with (get_liab (positions w a u) (Z.of_nat k)) in Ht. pose proof (proj2 (Hnw k r Hk)) as Hqq. change (liab_of w a u (Z.of_nat k)) with (get_liab (positions w a u) (Z.of_nat k)) in Hqq.
      set (n := get_liab (positions w a u) (Z.of_nat k)) in *. clearbody n.
      destruct (Z.eq_dec n 0) as [->|Hne]. { repeat (rewrite Z.mul_0_l || rewrite cdiv_0 || rewrite Z.mul_0_r). lia. }
      specialize (Ht Hne). specialize (Hqq Hne).
      assert (0 <= cdiv (n * d_rate_now (run w l1) a r) 1000000000 <= cdiv (n * top r) 1000000000) as [U1 U2].
      { split; [apply cdiv_nonneg; [lia|by apply Z.mul_nonneg_nonneg]|apply cdiv_mono; [lia|by apply Z.mul_le_mono_nonneg_l]]. }
      assert (0 <= cdiv (cdiv (n * d_rate_now (run w l1) a r) 1000000000 * 10000000) (rc_l_factor (cfg_of (pool w a) r)) <= cdiv (cdiv (n * top r) 1000000000 * 10000000) (rc_l_factor (cfg_of (pool w a) r))) as [V1 V2].
      { destruct (Z.eq_dec (rc_l_factor (cfg_of (pool w a) r)) 0) as [->|]; [unfold cdiv; rewrite !Zdiv_0_r; lia|]. split; [apply cdiv_nonneg; lia|apply cdiv_mono; lia]. }
      split; [apply cdiv_nonneg; [done|]; apply Z.mul_nonneg_nonneg; lia|]. apply cdiv_mono; [done|]. apply Z.mul_le_mono_nonneg; lia. }
    unfold weighted_coll, weighted_debt, eff_coll, eff_liab, debt_at, coll_stored, over_reserves. rewrite HL, Hp. split; [split|].
    - apply sumz_nonneg. intros [i r] Hin. cbn [fst snd]. by apply HD.
    - apply sumz_le. intros [i r] Hin. cbn [fst snd]. by apply HD.
    - apply sumz_le. intros [i r] Hin. cbn [fst snd]. destruct (HR i r Hin) as (k & d & -> & Hk & Hd & P10 & P1 & P2 & P3 & P4). destruct (HP (Z.of_nat k)) as [HP1 _].
      unfold coll_eff1, b_assets. rewrite Hc, Q2, Hd. change (rd_b_rate (data_at (w_now (run w l1)) (pool (run w l1) a) r)) with (b_rate_now (run w l1) a r).
      pose proof (proj1 (Hnw k r Hk)) as Hqq. change (coll_of w a u (Z.of_nat k)) with (get_coll (positions w a u) (Z.of_nat k)) in *.
      set (n := get_coll (positions w a u) (Z.of_nat k)) in *. clearbody n.
      destruct (Z.eq_dec n 0) as [->|Hne]; [repeat (rewrite Z.mul_0_l || rewrite Zdiv_0_l || rewrite Z.mul_0_r); lia|]. specialize (Hqq Hne).
      apply Z.div_le_mono; [done|]. specialize (Hq0 k r Hk).
      assert (0 <= n * rd_b_rate d / 1000000000 <= n * b_rate_now (run w l1) a r / 1000000000) as [U1 U2].
      { split; [apply Z.div_pos; [apply Z.mul_nonneg_nonneg; lia|lia]|]. apply Z.div_le_mono; [lia|]. apply Z.mul_le_mono_nonneg_l; lia. }
      assert (0 <= n * rd_b_rate d / 1000000000 * rc_c_factor (cfg_of (pool w a) r) / 10000000 <= n * b_rate_now (run w l1) a r / 1000000000 * rc_c_factor (cfg_of (pool w a) r) / 10000000) as [V1 V2].
      { split; [apply Z.div_pos; [apply Z.mul_nonneg_nonneg; lia|lia]|]. apply Z.div_le_mono; [lia|]. apply Z.mul_le_mono_nonneg_r; lia. }
      apply Z.mul_le_mono_nonneg; lia. }
  induction l as [|o l IH] using rev_ind.
  - destruct (Hval [] Hl Hq (Ht [] [] eq_refl) eq_refl) as [V1 V2]. cbn [run] in *. split; [done|]. split; [done|]. split; [done|]. split; [done|].
    intros sg pct (out & w' & H). destruct (C16_liquidation_auction _ _ _ _ _ _ _ Hr H) as (au & _ & _ & _ & _ & _ & _ & _ & Hx & _). unfold weighted_coll, weighted_debt in *. lia.
  - destruct IH as (I1 & I2 & I3 & I4 & _).
    { intros o1 Hin; apply Hu, elem_of_app; by left. } { by eapply unchanged_snoc. } { intros orc Hin; apply Hq, elem_of_app; by left. }
    { intros l1 l2 ->. apply (Ht l1 (l2 ++ [o])). by rewrite app_assoc. }
    assert (reachable (run w l)) as Hr1 by (by apply reachable_run). assert (reachable (run w (l ++ [o]))) as Hr2 by (by apply reachable_run).
    destruct (proj2 (proj2 (proj2 (C61_initialized_once w l))) a Hi) as (_ & Hb1 & _).
    assert (positions (run w (l ++ [o])) a u = positions w a u /\ auction (run w (l ++ [o])) a 0 u = None) as [P1 P2].
    { rewrite run_snoc. unfold step. destruct (exec (run w l) o) as [[out w']|] eqn:E; [|done]. rewrite <- I1. eapply (C80_step _ o out); [done|done|apply Hu, elem_of_app; right; by apply elem_of_list_singleton|by rewrite Hb1|done|].
      right. unfold covered_debt. unfold weighted_coll, weighted_debt in *. lia. }
    split; [done|]. split; [done|].
    destruct (Hval (l ++ [o]) Hl Hq (Ht (l ++ [o]) [] ltac:(by rewrite app_nil_r)) P1) as [V1 V2]. split; [done|]. split; [done|].
    intros sg pct (out & w' & H). destruct (C16_liquidation_auction _ _ _ _ _ _ _ Hr2 H) as (au & _ & _ & _ & _ & _ & _ & _ & Hx & _). unfold weighted_coll, weighted_debt in *. lia.
Qed.

(** what a loan of [r] owes at the moment is bounded by C92 with one update more, namely the one that
    would now be made *)
Lemma compound_upper' (d0 d1 d2 x y : Q) :
  (0 <= d1 -> 0 <= x -> 0 <= y -> d1 * (1 - y) <= d0 -> d2 <= d1 * (1 + x) -> 0 <= d2 -> 0 <= d0 -> d2 * (1 - (x + y)) <= d0)%Q.
Proof.
  intros Hd1 Hx Hy H1 H2 Hd2 Hd0. destruct (Qlt_le_dec (x + y) 1) as [Hl|Hl].
  - assert (d2 * (1 - (x + y)) <= d1 * (1 + x) * (1 - (x + y)))%Q as H4 by (apply Qmult_le_compat_r; lra).
    assert (0 <= x * y)%Q by (apply Qmult_le_0_compat; done). assert (0 <= x * x)%Q by (apply Qmult_le_0_compat; done).
    assert (0 <= d1 * (x * y + x * x))%Q by (apply Qmult_le_0_compat; [done|lra]). lra.
  - assert (0 <= d2 * ((x + y) - 1))%Q by (apply Qmult_le_0_compat; lra). lra.
Qed.
Theorem C94_rate_cap : forall l w a r d R,
  reachable w -> reserve w a r = Some d -> (0 <= R)%Q ->
  throughout w l (fun v => (loan_rate v a r + rate_rounding v a r <= R)%Q) ->
  (inject_Z (d_rate_now (run w l) a r) * (1 - interest_cap w (run w l) a r R (updates w a r l + 1)) <= inject_Z (rd_d_rate d))%Q.
Proof.
  intros l w a r d R Hr Hd HR Ht. destruct (C92_debt_growth l w a r d R Hr Hd HR Ht) as (d' & Hd' & Hle & Hg).
  assert (reachable (run w l)) as Hr' by (by apply reachable_run).
  destruct (rates_now _ _ _ _ Hr' Hd') as (_ & N1 & N2 & N3). pose proof (Ht l [] ltac:(by rewrite app_nil_r)) as Hlr. cbn beta in Hlr.
  destruct (loan_rate_nonneg (run w l) a r Hr') as [L1 L2].
  pose proof (ro_d _ (good_rd _ _ _ (init_of_data _ _ _ _ Hr Hd) Hd)) as D0.
  pose proof (ro_d _ (good_rd _ _ _ (init_of_data _ _ _ _ Hr' Hd') Hd')) as D1. vals.
  pose proof (years_nonneg _ _ Hle) as Y1. pose proof (years_nonneg _ _ N2) as Y2. pose proof (updates_nonneg a r l w) as U.
  pose proof (years_split (rd_last_time d) (rd_last_time d') (w_now (run w l))) as Hsp.
  unfold interest_cap. rewrite Hd.
  assert (0 <= d_rate_now (run w l) a r) as D2 by lia. assert (0 <= rd_d_rate d') as D1' by lia. assert (0 <= rd_d_rate d) as D0' by lia.
  rewrite Zle_Qle in D2, D1', D0', U. change (inject_Z 0) with 0%Q in *.
  set (lr := (loan_rate (run w l) a r + rate_rounding (run w l) a r)%Q) in *. assert (0 <= lr)%Q as Hlr0 by (unfold lr; lra).
  set (y1 := years (rd_last_time d) (rd_last_time d')) in *. set (y2 := years (rd_last_time d') (w_now (run w l))) in *. set (n := updates w a r l) in *. clearbody lr y1 y2 n.
  pose proof (Qmult_le_0_compat _ _ Y1 HR) as P1. pose proof (Qmult_le_0_compat _ _ Y2 HR) as P2.
  apply (compound_upper_ext _ _ ((y2 * R + (2 # 1000000000)) + (y1 * R + inject_Z n * (2 # 1000000000)))).
  { rewrite Hsp, inject_Z_plus. change (inject_Z 1) with 1%Q. ring. }
  apply (compound_upper' _ (inject_Z (rd_d_rate d'))); [done|lra|lra|exact Hg| |done|done].
  eapply Qle_trans; [exact N3|]. rewrite !(Qmult_comm (inject_Z (rd_d_rate d'))). apply Qmult_le_compat_r; [|done].
  assert (y2 * lr <= y2 * R)%Q by (rewrite !(Qmult_comm y2); by apply Qmult_le_compat_r). lra.
Qed.

(** ** Both together: an account whose margin exceeds what interest can do to it within a time is
    safe for that time *)
Lemma now_run l : forall w, w_now w <= w_now (run w l).
Proof.
  induction l as [|o l IH]; intros w; [cbn [run]; lia|]. cbn [run]. specialize (IH (step w o)). unfold step in *. destruct (exec w o) as [[out w']|] eqn:E; [|done]. pose proof (now_mono _ _ _ _ E). lia.
Qed.
Lemma updates_app a r l1 l2 : forall w, updates w a r (l1 ++ l2) = updates w a r l1 + updates (run w l1) a r l2.
Proof. induction l1 as [|o l1 IH]; intros w; [done|]. cbn [app updates run]. rewrite IH. lia. Qed.

Theorem C94_time_margin : forall w l a u top R,
  reachable w -> ps_init (pool w a) = true -> u <> ps_backstop (pool w a) -> auction w a 0 u = None ->
  (forall o, o ∈ l -> u ∉ signers o) -> unchanged a l ->
  (forall i r, reserve_list w a !! i = Some r -> 0 <= quote w a (x_orc (w_ext w)) r) -> (forall orc, OOracle orc ∈ l -> no_worse w a u orc) ->
  (forall i r d, reserve_list w a !! i = Some r -> reserve w a r = Some d -> liab_of w a u (Z.of_nat i) <> 0 ->
     (0 <= R r)%Q /\ throughout w l (fun v => (loan_rate v a r + rate_rounding v a r <= R r)%Q) /\
     let cap := interest_cap w (run w l) a r (R r) (updates w a r l + 1) in
     (cap < 1)%Q /\ (inject_Z (rd_d_rate d) <= inject_Z (top r) * (1 - cap))%Q) ->
  debt_at w a u top < coll_stored w a u ->
  positions (run w l) a u = positions w a u /\ auction (run w l) a 0 u = None /\
  0 <= weighted_debt (run w l) a u <= debt_at w a u top /\ coll_stored w a u <= weighted_coll (run w l) a u /\
  forall sg pct, ~ succeeds (run w l) (OPool sg a (PNewLiq u pct)).
Proof.
  intros w l a u top R Hr Hi Hb Hau Hu Hl Hq0 Hq Hc Hm. apply C94_margin; try done.
  intros l1 l2 -> i r Hlist Hne. destruct (proj1 (proj2 (proj2 (C29_reserve_list_bijection w a Hr)) i r) Hlist) as (cfg & Hcfg & _).
  assert (good (pool w a)) as G by (by apply reachable_good). destruct (proj1 (gd_dom _ G r) (ex_intro _ _ Hcfg)) as [d Hd]. change (reserve w a r = Some d) in Hd.
  destruct (Hc i r d Hlist Hd Hne) as (HR & Ht & H1 & H2).
  assert (throughout w l1 (fun v => (loan_rate v a r + rate_rounding v a r <= R r)%Q)) as Ht1.
  { intros k1 k2 ->. apply (Ht k1 (k2 ++ l2)). by rewrite app_assoc. }
  pose proof (C94_rate_cap l1 w a r d (R r) Hr Hd HR Ht1) as Hcap.
  pose proof (ro_d _ (good_rd _ _ _ (init_of_data _ _ _ _ Hr Hd) Hd)) as D0. vals.
  unfold interest_cap in H1, H2, Hcap. cbv zeta in H1, H2. rewrite Hd in H1, H2, Hcap. rewrite updates_app, run_app in H1, H2.
  pose proof (now_run l2 (run w l1)) as Hn. pose proof (updates_nonneg a r l2 (run w l1)) as U2.
  pose proof (years_split (rd_last_time d) (w_now (run w l1)) (w_now (run (run w l1) l2))) as Hsp. pose proof (years_nonneg _ _ Hn) as Y2.
  destruct (C04_rates_never_decrease w l1 a r d Hr Hd) as (d1 & Hd1 & _ & [Hx1 Hx2]).
  destruct (rates_now _ _ _ _ (reachable_run w l1 Hr) Hd1) as (_ & N1 & _).
  assert (0 <= d_rate_now (run w l1) a r) as D2 by lia.
  rewrite Zle_Qle. rewrite Zle_Qle in D2, U2. change (inject_Z 0) with 0%Q in *. rewrite !inject_Z_plus in Hcap. rewrite inject_Z_plus, (inject_Z_plus (updates w a r l1)) in H1, H2. change (inject_Z 1) with 1%Q in *.
  set (y1 := years (rd_last_time d) (w_now (run w l1))) in *. set (y2 := years (w_now (run w l1)) (w_now (run (run w l1) l2))) in *. set (y := years (rd_last_time d) (w_now (run (run w l1) l2))) in *.
  set (n1 := inject_Z (updates w a r l1)) in *. set (n2 := inject_Z (updates (run w l1) a r l2)) in *. set (dn := inject_Z (d_rate_now (run w l1) a r)) in *. clearbody y1 y2 y n1 n2 dn.
  set (C := (y * R r + (n1 + n2 + 1) * (2 # 1000000000))%Q) in *. set (C1 := (y1 * R r + (n1 + 1) * (2 # 1000000000))%Q) in *.
  assert (C1 <= C)%Q as HC. { unfold C, C1. rewrite Hsp. pose proof (Qmult_le_0_compat _ _ Y2 HR). lra. }
  clearbody C C1.
  assert (dn * (1 - C) <= inject_Z (top r) * (1 - C))%Q as HF.
  { assert (0 <= dn * (C - C1))%Q by (apply Qmult_le_0_compat; lra). lra. }
  apply Qmult_le_r in HF; [done|lra].
Qed.
