(** * Concrete cases for C27, and why its restrictions are needed *)
From Verif Require Import Base Types Token Emitter Factory Backstop PoolReserve PoolUser PoolHealth
  PoolAuction PoolSubmit PoolEmis PoolAdmin World Facts XMove Spec PoolFrame PoolCfg PoolHF PropsAdmin PoolEmisInv PropsBackstop5 PropsPool1 PropsPool2 PropsPool3
  PropsPool4 PropsPool5 PropsPool9 PropsPool10 PoolLive PropsPool13 Scenario ScenarioPool ExamplesPool.

(** ** Deciding the hypotheses *)
Definition emis_fits_b (now : Z) (p : PoolSt) (u : Addr) (id : Z) : bool :=
  match ps_ecfg p !! id, ps_edata p !! id with
  | Some cfg, Some d =>
      let dt := undistributed now cfg d in
      (dt <=? u64_max) && (dt * ec_eps cfg * tok_unit p id <=? i128_max) && (index_at now p id <=? i128_max) &&
      (tok_bal p u id * index_at now p id <=? i128_max) && (claimable now p u id <=? i128_max)
  | _, _ => true
  end.
Lemma emis_fits_dec now p u id : emis_fits_b now p u id = true -> emis_fits now p u id.
Proof.
  unfold emis_fits_b, emis_fits. intros H cfg d Hc Hd. rewrite Hc, Hd in H. cbv zeta in *.
  repeat (apply andb_true_iff in H as [H ?]). rewrite Z.leb_le in *. done.
Qed.
Definition bad_debt_b (w : World) (a u : Addr) : bool :=
  forallb (fun ir => let '(i, r) := ir in
    (owed (account w a u) r =? 0) ||
    (accruable_b w a r && emis_fits_b (w_now w) (pool w a) u (i * 2) && emis_fits_b (w_now w) (pool w a) (ps_backstop (pool w a)) (i * 2) &&
     match reserve w a r with Some d => rd_d_supply d + owed (account w a u) r <=? i128_max | None => true end)) (indexed 0 (reserve_list w a)).
Lemma indexed_lookup (l : list Addr) (i : nat) r k : l !! i = Some r -> (k + Z.of_nat i, r) ∈ indexed k l.
Proof.
  revert i k. induction l as [|b l IH]; intros [|i] k H; simpl in *; try discriminate.
  - injection H as ->. rewrite Z.add_0_r. left.
  - right. replace (k + Z.of_nat (S i)) with (k + 1 + Z.of_nat i) by lia. by apply IH.
Qed.
Lemma bad_debt_dec w a u : bad_debt_b w a u = true ->
  forall (i : nat) r, reserve_list w a !! i = Some r -> owed (account w a u) r <> 0 ->
     accruable w a r /\
     emis_fits (w_now w) (pool w a) u (Z.of_nat i * 2) /\ emis_fits (w_now w) (pool w a) (ps_backstop (pool w a)) (Z.of_nat i * 2) /\
     (forall d, reserve w a r = Some d -> rd_d_supply d + owed (account w a u) r <= i128_max).
Proof.
  intros H i r Hl Hn. unfold bad_debt_b in H. rewrite forallb_forall in H.
  specialize (H (Z.of_nat i, r) ltac:(apply elem_of_list_In; apply (indexed_lookup _ _ _ 0 Hl))). cbv beta iota in H.
  rewrite (proj2 (Z.eqb_neq _ _) Hn) in H. cbn [orb] in H. repeat (apply andb_true_iff in H as [H ?]).
  split; [by apply accruable_dec|]. split; [by apply emis_fits_dec|]. split; [by apply emis_fits_dec|].
  intros d Hd. rewrite Hd in *. by apply Z.leb_le.
Qed.
Definition valued_b (w : World) (a r : Addr) (b d : Z) : bool :=
  let now := w_now w in let p := pool w a in let x := w_ext w in
  accruable_b w a r &&
  match o_price (x_orc x) !! (pc_oracle (ps_config p), r) with
  | Some (v, t) => (0 <=? v) && (0 <=? t) && (now <=? t + 86400) && (t + 86400 <=? u64_max) | None => false end &&
  (b * b_rate_now w a r <=? i128_max) && (b_assets now p r b * 10000000 <=? i128_max) && (price_of p x r * b_assets now p r b <=? i128_max) &&
  (d * d_rate_now w a r <=? i128_max) && (d_assets now p r d * 10000000 <=? i128_max) &&
  ((d =? 0) || ((0 <? rc_l_factor (cfg_of p r)) &&
     (price_of p x r * cdiv (d_assets now p r d * 10000000) (rc_l_factor (cfg_of p r)) <=? i128_max))).
Lemma valued_dec w a r b d : valued_b w a r b d = true -> valued w a r b d.
Proof.
  unfold valued_b, valued. intros H. cbv zeta in *. repeat (apply andb_true_iff in H as [H ?]).
  split; [by apply accruable_dec|]. split.
  { destruct (o_price _ !! _) as [[v t]|]; [|done].
    repeat match goal with H : _ && _ = true |- _ => apply andb_true_iff in H as [? ?] end. rewrite Z.leb_le in *. exists v, t. split; [done|]. lia. }
  rewrite !Z.leb_le in *. repeat (split; [assumption|]). intros Hd.
  match goal with H : (_ || _) = true |- _ => apply orb_true_iff in H as [H|H] end; [rewrite Z.eqb_eq in *; lia|].
  match goal with H : _ && _ = true |- _ => apply andb_true_iff in H as [? ?] end. rewrite Z.leb_le, Z.ltb_lt in *. done.
Qed.
Definition liq_b (w : World) (a u : Addr) (dec : Z) : bool :=
  forallb (fun ir => let '(i, r) := ir in let b := collateral (account w a u) r in let d := owed (account w a u) r in
    ((b =? 0) && (d =? 0)) || (valued_b w a r b d && (b * 10 ^ dec <=? i128_max) && (d * 10 ^ dec <=? i128_max))) (indexed 0 (reserve_list w a)) &&
  forallb (fun r => 0 <=? price_of (pool w a) (w_ext w) r) (reserve_list w a).
Lemma liq_dec w a u dec : liq_b w a u dec = true ->
  (forall r, r ∈ reserve_list w a -> 0 <= price_of (pool w a) (w_ext w) r) /\
  (forall (i : nat) r, reserve_list w a !! i = Some r -> collateral (account w a u) r <> 0 \/ owed (account w a u) r <> 0 ->
     valued w a r (collateral (account w a u) r) (owed (account w a u) r) /\
     collateral (account w a u) r * 10 ^ dec <= i128_max /\ owed (account w a u) r * 10 ^ dec <= i128_max).
Proof.
  intros H. apply andb_true_iff in H as [H1 H2]. rewrite forallb_forall in H1, H2. split.
  - intros r Hr. apply elem_of_list_In in Hr. apply H2 in Hr. by apply Z.leb_le in Hr.
  - intros i r Hl Hn. specialize (H1 (Z.of_nat i, r) ltac:(apply elem_of_list_In; apply (indexed_lookup _ _ _ 0 Hl))). cbv beta iota zeta in H1.
    apply orb_true_iff in H1 as [H1|H1]. { apply andb_true_iff in H1 as [H3%Z.eqb_eq H4%Z.eqb_eq]. rewrite H3, H4 in Hn. lia. }
    apply andb_true_iff in H1 as [H1 H5%Z.leb_le]. apply andb_true_iff in H1 as [H3 H4%Z.leb_le]. apply valued_dec in H3. done.
Qed.

(** ** C27: concrete cases *)
(** after the fill of [ops_baddebt], alice has 90% of her debt and no collateral *)
Definition ops_nocoll : list Op := ops_crash ++
  [OPool [] P1 (PNewLiq alice 100); submit_op carol [(2, AAA, 900000000000)]; OTick 1900 381; submit_op carol [(6, alice, 100)]].
Definition empty_b (m : gmap Z Z) : bool := match map_to_list m with [] => true | _ => false end.
Lemma empty_dec m : empty_b m = true <-> m = ∅.
Proof.
  unfold empty_b. destruct (map_to_list m) eqn:E; split; try done.
  - intros _. by apply map_to_list_empty_iff.
  - intros ->. by rewrite map_to_list_empty in E.
Qed.
Example ex_C27_bad_debt : succeeds (run sc0 ops_nocoll) (OPool [] P1 (PBadDebt alice)).
Proof.
  assert (reachable (run sc0 ops_nocoll)) as Hr by apply sc_reachable.
  assert (ps_init (pool (run sc0 ops_nocoll) P1) = true) as H1 by by vm_compute.
  assert (negb (alice =? ps_backstop (pool (run sc0 ops_nocoll) P1)) = true) as H2 by by vm_compute.
  assert (empty_b (po_coll (positions (run sc0 ops_nocoll) P1 alice)) = true) as H3 by by vm_compute.
  assert (empty_b (po_liab (positions (run sc0 ops_nocoll) P1 alice)) = false) as H4 by by vm_compute.
  assert (bad_debt_b (run sc0 ops_nocoll) P1 alice = true) as H5 by by vm_compute.
  generalize dependent (run sc0 ops_nocoll). intros w Hr H1 H2 H3 H4 H5.
  apply C27_bad_debt_possible; [done|done|done| | | |by apply bad_debt_dec].
  - apply negb_true_iff, Z.eqb_neq in H2. done.
  - by apply empty_dec.
  - intros E. apply empty_dec in E. congruence.
Qed.
(** alice after the crash: collateral worth 1000, debt worth more than 6500 *)
Example ex_C27_insolvent :
  let w := run sc0 ops_crash in
  (raw_coll (w_now w) (pool w P1) (w_ext w) (positions w P1 alice) = 10000000000 /\
   6500000 * 10000 < raw_liab (w_now w) (pool w P1) (w_ext w) (positions w P1 alice)) /\
  succeeds w (OPool [] P1 (PNewLiq alice 100)).
Proof.
  cbv zeta. split. { split; by vm_compute. }
  assert (reachable (run sc0 ops_crash)) as Hr by apply sc_reachable.
  assert (ps_init (pool (run sc0 ops_crash) P1) = true) as H1 by by vm_compute.
  assert (negb (alice =? ps_backstop (pool (run sc0 ops_crash) P1)) = true) as H2 by by vm_compute.
  assert (auction (run sc0 ops_crash) P1 0 alice = None) as H3 by by vm_compute.
  assert ((0 <=? w_seq (run sc0 ops_crash)) && (w_seq (run sc0 ops_crash) <? u32_max) = true) as H4 by by vm_compute.
  assert (o_dec (x_orc (w_ext (run sc0 ops_crash))) !! pc_oracle (ps_config (pool (run sc0 ops_crash) P1)) = Some 7) as H5 by by vm_compute.
  assert (liq_b (run sc0 ops_crash) P1 alice 7 = true) as H6 by by vm_compute.
  assert (let w := run sc0 ops_crash in let C := raw_coll (w_now w) (pool w P1) (w_ext w) (positions w P1 alice) in
    let L := raw_liab (w_now w) (pool w P1) (w_ext w) (positions w P1 alice) in
    let E := eff_liab (w_now w) (pool w P1) (w_ext w) (positions w P1 alice) in (0 <? C) && (C <=? L) && (2 * E * 10 ^ 7 <=? i128_max) = true) as H7 by by vm_compute.
  generalize dependent (run sc0 ops_crash). intros w Hr H1 H2 H3 H4 H5 H6 H7. cbv zeta in H7.
  apply andb_true_iff in H7 as [H7 H8%Z.leb_le]. apply andb_true_iff in H7 as [H7%Z.ltb_lt H9%Z.leb_le]. apply andb_true_iff in H4 as [H4%Z.leb_le H4'%Z.ltb_lt].
  apply liq_dec in H6 as [H6 H6']. apply negb_true_iff, Z.eqb_neq in H2.
  apply (C27_insolvent_liquidatable w [] P1 alice 7 Hr); try done.
Qed.

(** ** C27: why the claim is restricted *)
(** the percentages for which a liquidation of [u] succeeds *)
Definition liquidatable (w : World) (a u : Addr) : list Z :=
  filter (fun pct => is_ok (exec w (OPool [] a (PNewLiq u pct))) = true) (map Z.of_nat (seq 1 100)).
Lemma never_liquidatable w a u : reachable w -> liquidatable w a u = [] -> forall sg pct, ~ succeeds w (OPool sg a (PNewLiq u pct)).
Proof.
  intros Hr H sg pct (out & w' & E).
  pose proof (C16_liquidation_auction _ _ _ _ _ _ _ Hr E) as C. cbv zeta in C. destruct C as (au & _ & _ & _ & _ & Hp & _).
  assert (is_ok (exec w (OPool [] a (PNewLiq u pct))) = true) as Hok.
  { unfold exec in E |- *. apply assert_ok in E as [Hb E]. apply andb_true_iff in Hb as [_ Hb].
    cbn [forallb andb]. rewrite Hb. apply bind_ok in E as (p & Ep & E). rewrite Ep. cbn [bind].
    apply bind_ok in E as ([o px] & E & _). unfold p_exec in E |- *. cbn [px_p px_x] in *.
    destruct (ps_init p); cbn [negb] in *; [|discriminate].
    apply bind_ok in E as ([au' p'] & E & _).
    unfold create_liquidation, create_user_liq in E |- *. cbn [ctx c_seq c_now] in *. rewrite E. done. }
  assert (pct ∈ liquidatable w a u) as Hin; [|rewrite H in Hin; by apply elem_of_nil in Hin].
  unfold liquidatable. apply elem_of_list_filter. split; [done|]. apply elem_of_list_fmap. exists (Z.to_nat pct). split; [lia|].
  apply elem_of_seq. lia.
Qed.
(** dust: alice supplies one unit of collateral after her position has been liquidated; it is
    worth less than one unit of the oracle, and the debt can neither be liquidated nor handed
    to the backstop *)
Definition ops_dust : list Op := ops_nocoll ++ [submit_op alice [(2, AAA, 1)]].
(** gap: between the position that a 100% liquidation would leave with collateral and those a
    99% liquidation leaves healthy there is a narrow range of prices where no percentage is accepted *)
Definition ops_gap : list Op := ops_loan ++ [OOracle (orc0 (t0 + 86400) 10000000 16366612)].
Theorem C27_restriction_needed :
  (exists w a u, reachable w /\ 0 < owed (account w a u) BBB /\ collateral (account w a u) AAA = 1 /\
     eff_coll (w_now w) (pool w a) (w_ext w) (positions w a u) < eff_liab (w_now w) (pool w a) (w_ext w) (positions w a u) /\
     (forall sg pct, ~ succeeds w (OPool sg a (PNewLiq u pct))) /\ (forall sg, ~ succeeds w (OPool sg a (PBadDebt u)))) /\
  (exists w a u, reachable w /\
     eff_coll (w_now w) (pool w a) (w_ext w) (positions w a u) * 19 < eff_liab (w_now w) (pool w a) (w_ext w) (positions w a u) * 14 /\
     (forall sg pct, ~ succeeds w (OPool sg a (PNewLiq u pct))) /\ (forall sg, ~ succeeds w (OPool sg a (PBadDebt u)))).
Proof.
  assert (forall w a u, empty_b (po_coll (positions w a u)) = false -> forall sg, ~ succeeds w (OPool sg a (PBadDebt u))) as Hbd.
  { intros w a u H sg (out & w' & E). unfold exec in E. mon1 E. apply bind_ok in E as (p & Ep & E).
    destruct (w_pools w !! a) as [p0|] eqn:Ep'; [|discriminate]. injection Ep as ->. assert (pool w a = p) as Hp by (unfold pool; by rewrite Ep').
    apply bind_ok in E as ([o px] & E & _). unfold p_exec in E. cbn [px_p px_x] in E. destruct (ps_init p); cbn [negb] in E; [|discriminate].
    unfold on_pool in E. apply bind_ok in E as (p1 & E & _). cbn [px_p] in E. unfold p_bad_debt in E. mon1 E. apply assert_ok in E as [E _].
    apply andb_true_iff in E as [E _]. apply bool_decide_eq_true in E. unfold positions in H. rewrite Hp in H. apply empty_dec in E. congruence. }
  split.
  - exists (run sc0 ops_dust), P1, alice. split; [apply sc_reachable|]. split; [by vm_compute|]. split; [by vm_compute|]. split; [by vm_compute|].
    split; [|apply Hbd; by vm_compute]. apply never_liquidatable; [apply sc_reachable|]. by vm_compute.
  - exists (run sc0 ops_gap), P1, alice. split; [apply sc_reachable|]. split; [by vm_compute|].
    split; [|apply Hbd; by vm_compute]. apply never_liquidatable; [apply sc_reachable|]. by vm_compute.
Qed.
