(** * What can make an account liquidatable (C91) *)
From Verif Require Import Base Types Token Emitter Factory Backstop PoolReserve PoolUser PoolHealth
  PoolAuction PoolSubmit PoolEmis PoolAdmin World Facts XMove Spec PoolFrame PoolCfg PoolAccrue PoolTrace PoolInv AuctionFacts
  PoolSim PoolReq PoolHF PoolOps PoolLiq PoolReach PoolTx FrameFacts PropsAdmin PropsAdmin2 PropsAdmin3 PropsPool1 PropsPool2 PropsPool3 PropsPool4 PropsPool14 PropsPool30 PropsPool36.

(** ** Specification *)
(** what an oracle quotes for [r] to the pool at [a] *)
Definition quote (w : World) (a : Addr) (orc : Oracle) (r : Addr) : Z :=
  match o_price orc !! (pc_oracle (ps_config (pool w a)), r) with Some (v, _) => v | None => 0 end.
(** new quotes are not worse for the account than the present ones: no less for its collateral, and no more (nor negative) for its debts *)
Definition no_worse (w : World) (a u : Addr) (orc : Oracle) : Prop :=
  forall i r, reserve_list w a !! i = Some r ->
    (coll_of w a u (Z.of_nat i) <> 0 -> quote w a (x_orc (w_ext w)) r <= quote w a orc r) /\
    (liab_of w a u (Z.of_nat i) <> 0 -> 0 <= quote w a orc r <= quote w a (x_orc (w_ext w)) r).
(** no time passes, the take rate is not changed and no queued reserve change takes effect *)
Definition calm (a : Addr) (o : Op) : Prop := same_ledger a o /\ (forall sg r, o <> OPool sg a (PSetRes r)).
(** the account's weighted collateral and debt *)
Definition weighted_coll (w : World) (a u : Addr) : Z := eff_coll (w_now w) (pool w a) (w_ext w) (positions w a u).
Definition weighted_debt (w : World) (a u : Addr) : Z := eff_liab (w_now w) (pool w a) (w_ext w) (positions w a u).

(** ** What calm transactions keep *)
Lemma now_step w o out w' : exec w o = Ok (out, w') -> (forall dt ds, o <> OTick dt ds) -> w_now w' = w_now w.
Proof.
  intros H Ht. unfold exec in H. destruct o; mon H; simpl; try done; try (by destruct (Ht dt dseq)).
  all: destruct (w_pools w !! _); mon H; done.
Qed.
Lemma now_calm a l : forall w, Forall (calm a) l -> w_now (run w l) = w_now w.
Proof.
  induction l as [|o l IH]; intros w H; [done|]. apply Forall_cons in H as [[[Ho _] _] H]. cbn [run]. rewrite IH by done. unfold step. destruct (exec w o) as [[out w']|] eqn:E; [|done]. by eapply now_step.
Qed.
Lemma cfg_calm a l : forall w, Forall (calm a) l -> forall r, res_cfg (run w l) a r = res_cfg w a r.
Proof.
  induction l as [|o l IH]; intros w H r; [done|]. apply Forall_cons in H as [[_ Ho] H]. cbn [run]. rewrite IH by done. unfold step. destruct (exec w o) as [[out w']|] eqn:E; [|done].
  destruct (decide (res_cfg w' a r = res_cfg w a r)) as [|Hne]; [done|]. apply (exec_pool _ _ _ _ a) in E. destruct (rcfg_step _ _ _ _ _ _ E Hne) as (sg & q & i & -> & _). by destruct (Ho sg r).
Qed.
Lemma list_calm a l w : reachable w -> Forall (calm a) l -> reserve_list (run w l) a = reserve_list w a.
Proof.
  intros Hr H. pose proof (C29_reserve_list_bijection w a Hr) as (_ & _ & B1). pose proof (C29_reserve_list_bijection (run w l) a (reachable_run _ _ Hr)) as (_ & _ & B2).
  unfold reserve_list. apply list_eq. intros i. apply option_eq. intros r. rewrite B1, B2. by rewrite (cfg_calm a l w H r).
Qed.
Lemma orc_step w o out w' : exec w o = Ok (out, w') -> x_orc (w_ext w') = match o with OOracle orc => orc | _ => x_orc (w_ext w) end.
Proof.
  intros H. unfold exec in H. destruct o as [sg o|sg b o|sg ad sa orc ra mp|b|dt ds|orc|n|b t u|b r|].
  - apply assert_ok in H as [_ H]. apply bind_ok in H as ([o1 x1] & E & H). apply Ok_inj in H. injection H as _ <-. cbn. by eapply x_exec_orc.
  - apply assert_ok in H as [_ H]. apply bind_ok in H as (p & _ & H). apply bind_ok in H as ([o1 px1] & E & H). apply Ok_inj in H. injection H as _ <-. apply same_p_exec in E as (_ & _ & E). exact E.
  - mon H. destruct (w_pools w !! _); mon H. done.
  - mon H. destruct (w_pools w !! _); mon H. done.
  - mon H. done.
  - mon H. done.
  - mon H. done.
  - mon H. done.
  - mon H. done.
  - mon H. done.
Qed.
Lemma orc_run l : forall w, x_orc (w_ext (run w l)) = x_orc (w_ext w) \/ OOracle (x_orc (w_ext (run w l))) ∈ l.
Proof.
  induction l as [|o l IH]; intros w; [by left|]. cbn [run]. destruct (IH (step w o)) as [E|E]; [|right; by apply elem_of_cons; right].
  unfold step in *. destruct (exec w o) as [[out w']|] eqn:Ex; [|by left]. pose proof (orc_step _ _ _ _ Ex) as Ho.
  destruct o as [sg o|sg b o|sg ad sa orc ra mp|b|dt ds|orc|n|b t u|b r|]; try (left; congruence). right. rewrite E, Ho. apply elem_of_cons. by left.
Qed.

(** ** The two sums *)
Lemma weighted_kept w l a u : reachable w -> ps_init (pool w a) = true -> Forall (calm a) l -> (forall orc, OOracle orc ∈ l -> no_worse w a u orc) ->
  positions (run w l) a u = positions w a u -> 0 <= weighted_debt w a u ->
  weighted_coll w a u <= weighted_coll (run w l) a u /\ 0 <= weighted_debt (run w l) a u <= weighted_debt w a u.
Proof.
  intros Hr Hi Hl Ho Hp H0. pose proof (now_calm a l w Hl) as Hn. pose proof (list_calm a l w Hr Hl) as HL. unfold reserve_list in HL.
  assert (forall r, cfg_of (pool (run w l) a) r = cfg_of (pool w a) r) as Hc. { intros r. pose proof (cfg_calm a l w Hl r) as E. unfold res_cfg in E. unfold cfg_of. by rewrite E. }
  destruct (proj2 (proj2 (proj2 (C61_initialized_once w l))) a Hi) as (_ & _ & _ & Hpo).
  assert (good (pool w a)) as G by (by apply reachable_good).
  assert (forall i r, (i, r) ∈ indexed 0 (ps_list (pool w a)) -> exists k, i = Z.of_nat k /\ reserve_list w a !! k = Some r /\ 0 <= rc_decimals (cfg_of (pool w a) r) /\ 0 <= rc_c_factor (cfg_of (pool w a) r) /\ 0 <= rc_l_factor (cfg_of (pool w a) r) /\
      b_rate_now (run w l) a r = b_rate_now w a r /\ d_rate_now (run w l) a r = d_rate_now w a r /\ 0 <= b_rate_now w a r /\ 0 <= d_rate_now w a r) as HR.
  { intros i r Hin. apply indexed_in in Hin as [Hi0 Hin]. rewrite Z.sub_0_r in Hin. exists (Z.to_nat i). split; [lia|]. split; [exact Hin|].
    destruct (cw_idx _ (gd_cfg _ G) _ _ Hin) as (cfg & Hcfg & _). destruct (cw_valid _ (gd_cfg _ G) _ _ Hcfg) as (B1 & B2 & B3 & _). unfold cfg_of. rewrite Hcfg. cbn [default from_option].
    destruct (proj1 (gd_dom _ G r) (ex_intro _ _ Hcfg)) as [d Hd]. pose proof (rates_pos w a r d Hr Hd). destruct (C72_rates_of_a_ledger w l a r d Hr Hd) as [R1 R2]; [eapply Forall_impl; [exact Hl|]; by intros o [? _]|].
    unfold id. repeat (split; [lia|]). lia. }
  assert (forall i, 0 <= get_coll (positions w a u) i /\ 0 <= get_liab (positions w a u) i) as HP.
  { intros i. split; apply pos_ok_getz with (k := KColl) || apply pos_ok_getz with (k := KLiab); apply G. }
  assert (forall r, price_of (pool w a) (w_ext w) r = quote w a (x_orc (w_ext w)) r) as Q1.
  { intros r. unfold price_of, quote. by destruct (_ !! _) as [[]|]. }
  assert (forall r, price_of (pool (run w l) a) (w_ext (run w l)) r = quote w a (x_orc (w_ext (run w l))) r) as Q2.
  { intros r. unfold price_of, quote. rewrite Hpo. by destruct (_ !! _) as [[]|]. }
  assert (forall i r, (i, r) ∈ indexed 0 (ps_list (pool w a)) -> get_coll (positions w a u) i <> 0 -> quote w a (x_orc (w_ext w)) r <= quote w a (x_orc (w_ext (run w l))) r) as QC.
  { intros i r Hin Hb. destruct (HR i r Hin) as (k & -> & Hk & _). destruct (orc_run l w) as [->|E]; [lia|]. by apply (Ho _ E k r Hk). }
  assert (forall i r, (i, r) ∈ indexed 0 (ps_list (pool w a)) -> get_liab (positions w a u) i <> 0 -> quote w a (x_orc (w_ext (run w l))) r <= quote w a (x_orc (w_ext w)) r) as QL.
  { intros i r Hin Hb. destruct (HR i r Hin) as (k & -> & Hk & _). destruct (orc_run l w) as [->|E]; [lia|]. by apply (Ho _ E k r Hk). }
  assert (forall i r, (i, r) ∈ indexed 0 (ps_list (pool w a)) -> 0 <= cdiv (d_assets (w_now w) (pool w a) r (get_liab (positions w a u) i) * 10000000) (rc_l_factor (cfg_of (pool w a) r))) as HD.
  { intros i r Hin. destruct (HR i r Hin) as (k & -> & Hk & B1 & B2 & B3 & _ & _ & _ & B4). destruct (HP (Z.of_nat k)) as [_ HP2]. unfold d_rate_now in B4.
    assert (0 <= d_assets (w_now w) (pool w a) r (get_liab (positions w a u) (Z.of_nat k))) as Hd by (unfold d_assets; apply cdiv_nonneg; [lia|]; by apply Z.mul_nonneg_nonneg).
    destruct (Z.eq_dec (rc_l_factor (cfg_of (pool w a) r)) 0) as [->|]; [unfold cdiv; rewrite Zdiv_0_r; lia|]. apply cdiv_nonneg; lia. }
  assert (forall i r, (i, r) ∈ indexed 0 (ps_list (pool w a)) -> 0 < 10 ^ rc_decimals (cfg_of (pool w a) r)) as H10.
  { intros i r Hin. destruct (HR i r Hin) as (k & _ & _ & B1 & _). apply Z.pow_pos_nonneg; lia. }
  unfold weighted_coll, weighted_debt, eff_coll, eff_liab, over_reserves in *. rewrite HL, Hn, Hp. split; [|split].
  - apply sumz_le. intros [i r] Hin. cbn [fst snd]. unfold coll_eff1. rewrite Hc, Q1, Q2. destruct (HR i r Hin) as (k & Hk0 & Hk & B1 & B2 & B3 & R1 & R2 & B4 & _).
    unfold b_rate_now in R1, B4. rewrite Hn in R1. unfold b_assets. rewrite R1. destruct (Z.eq_dec (get_coll (positions w a u) i) 0) as [->|Hne]; [repeat (rewrite Z.mul_0_l || rewrite Zdiv_0_l || rewrite Z.mul_0_r); lia|].
    apply Z.div_le_mono; [by eapply H10|]. apply Z.mul_le_mono_nonneg_r; [|by eapply QC]. apply Z.div_pos; [|lia]. apply Z.mul_nonneg_nonneg; [|done]. apply Z.div_pos; [|lia]. apply Z.mul_nonneg_nonneg; [apply HP|done].
  - destruct (orc_run l w) as [E|E].
    + refine (Z.le_trans _ _ _ H0 (Z.eq_le_incl _ _ _)). apply sumz_ext. intros [i r] Hin. cbn [fst snd]. unfold liab_eff1. rewrite Hc, Q1, Q2, E. destruct (HR i r Hin) as (k & Hk0 & Hk & B1 & B2 & B3 & R1 & R2 & _).
      unfold d_rate_now in R2. rewrite Hn in R2. unfold d_assets. by rewrite R2.
    + apply sumz_nonneg. intros [i r] Hin. cbn [fst snd]. unfold liab_eff1. rewrite Hc, Q2. destruct (HR i r Hin) as (k & Hk0 & Hk & B1 & B2 & B3 & R1 & R2 & _).
      unfold d_rate_now in R2. rewrite Hn in R2. specialize (HD i r Hin). unfold d_assets in *. rewrite R2. destruct (Z.eq_dec (get_liab (positions w a u) i) 0) as [E0|Hne].
      { rewrite E0. repeat (rewrite Z.mul_0_l || rewrite cdiv_0 || rewrite Z.mul_0_r); lia. }
      apply cdiv_nonneg; [by eapply H10|]. apply Z.mul_nonneg_nonneg; [|done]. subst i. by apply (Ho _ E k r Hk).
  - apply sumz_le. intros [i r] Hin. cbn [fst snd]. unfold liab_eff1. rewrite Hc, Q1, Q2. destruct (HR i r Hin) as (k & Hk0 & Hk & B1 & B2 & B3 & R1 & R2 & _).
    unfold d_rate_now in R2. rewrite Hn in R2. specialize (HD i r Hin). unfold d_assets in *. rewrite R2. destruct (Z.eq_dec (get_liab (positions w a u) i) 0) as [E0|Hne].
    { rewrite E0. repeat (rewrite Z.mul_0_l || rewrite cdiv_0 || rewrite Z.mul_0_r); lia. }
    apply cdiv_mono; [by eapply H10|]. apply Z.mul_le_mono_nonneg_r; [done|]. by eapply QL.
Qed.

(** ** C91 *)
Theorem C91_what_endangers_an_account : forall w l a u,
  reachable w -> ps_init (pool w a) = true -> u <> ps_backstop (pool w a) -> auction w a 0 u = None -> 0 <= weighted_debt w a u < weighted_coll w a u ->
  (forall o, o ∈ l -> u ∉ signers o) -> Forall (calm a) l -> (forall orc, OOracle orc ∈ l -> no_worse w a u orc) ->
  positions (run w l) a u = positions w a u /\ auction (run w l) a 0 u = None /\
  weighted_coll w a u <= weighted_coll (run w l) a u /\ 0 <= weighted_debt (run w l) a u <= weighted_debt w a u /\
  forall sg pct, ~ succeeds (run w l) (OPool sg a (PNewLiq u pct)).
Proof.
  intros w l a u Hr Hi Hb Hau Hcov. induction l as [|o l IH] using rev_ind; intros Hu Hl Ho.
  - cbn [run]. split; [done|]. split; [done|]. split; [lia|]. split; [lia|]. intros sg pct (out & w' & H). destruct (C16_liquidation_auction _ _ _ _ _ _ _ Hr H) as (au & _ & _ & _ & _ & _ & _ & _ & Hx & _). unfold weighted_coll, weighted_debt in Hcov. lia.
  - apply Forall_app in Hl as [Hl Ho1]. apply Forall_cons in Ho1 as [Ho1 _].
    destruct IH as (I1 & I2 & I3 & I4 & _); [intros o1 Hin; apply Hu, elem_of_app; by left|done|intros orc Hin; apply Ho, elem_of_app; by left|].
    assert (reachable (run w l)) as Hr1 by (by apply reachable_run). assert (reachable (run w (l ++ [o]))) as Hr2 by (by apply reachable_run).
    destruct (proj2 (proj2 (proj2 (C61_initialized_once w l))) a Hi) as (_ & Hb1 & _).
    assert (positions (run w (l ++ [o])) a u = positions w a u /\ auction (run w (l ++ [o])) a 0 u = None) as [P1 P2].
    { rewrite run_snoc. unfold step. destruct (exec (run w l) o) as [[out w']|] eqn:E; [|done]. rewrite <- I1. eapply (C80_step _ o out); [done|done|apply Hu, elem_of_app; right; by apply elem_of_list_singleton|by rewrite Hb1|done|].
      right. unfold covered_debt. unfold weighted_coll, weighted_debt in *. lia. }
    split; [done|]. split; [done|]. destruct (weighted_kept w (l ++ [o]) a u Hr Hi) as [W1 W2]; [by apply Forall_app; split; [done|apply Forall_cons; split; [done|constructor]]|done|done|lia|].
    split; [done|]. split; [done|]. intros sg pct (out & w' & H). destruct (C16_liquidation_auction _ _ _ _ _ _ _ Hr2 H) as (au & _ & _ & _ & _ & _ & _ & _ & Hx & _). unfold weighted_coll, weighted_debt in *. lia.
Qed.
