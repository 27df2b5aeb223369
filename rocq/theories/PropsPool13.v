(** * Positions that should be liquidated can be: C27 *)
From Verif Require Import Base Types Token Emitter Factory Backstop PoolReserve PoolUser PoolHealth
  PoolAuction PoolSubmit PoolEmis PoolAdmin World Facts XMove Spec PoolFrame PoolCfg PoolAccrue PoolTrace PoolInv AuctionFacts
  PoolSim PoolReq PoolHF PoolOps PoolLiq PoolReach PoolTx PoolEmisInv FrameFacts PropsAdmin PropsBackstop5 PropsPool1 PropsPool2 PropsPool3
  PropsPool4 PropsPool9 PropsPool10 PoolLive.

(** ** Handing debt to the backstop *)
Lemma list_get_total (l : list Addr) i r : l !! Z.to_nat i = Some r -> 0 <= i -> list_get l i = Ok r.
Proof. intros H Hi. unfold list_get. rewrite (proj2 (Z.ltb_ge i 0)) by lia. by rewrite H. Qed.
Lemma load_total w a r : reachable w -> accruable w a r ->
  exists res cfg d, load_res (w_now w) (ps_config (pool w a)) (pool w a) r = Ok res /\ r_asset res = r /\
    ps_rcfg (pool w a) !! r = Some cfg /\ reserve w a r = Some d /\ r_index res = rc_index cfg /\ r_scalar res = 10 ^ rc_decimals cfg /\
    rd_d_supply (r_data res) = rd_d_supply d /\ rd_b_supply (r_data res) = rd_b_supply d.
Proof.
  intros Hr Hac. destruct (load_res_total w a r Hr Hac) as (res & Hl & Ha & _).
  pose proof (load_res_fields _ _ _ _ _ Hl) as (cfg & d & Hc & Hd & _ & Hi & _ & _ & _ & Hs & Hacc).
  pose proof (init_of_data w a r d Hr Hd) as G.
  pose proof (accrue_spec _ _ _ _ _ (good_rd _ _ _ G Hd) (cw_valid _ (gd_cfg _ G) _ _ Hc) (cw_rate _ (gd_cfg _ G)) Hacc) as (_ & H1 & H2 & _).
  exists res, cfg, d. done.
Qed.

Section baddebt.
Context (w : World) (a u : Addr).
Hypothesis (Hr : reachable w) (G : good (pool w a)).
Let p := pool w a.
Let bs := ps_backstop p.
Let pos := positions w a u.
Hypothesis Hne : u <> bs.

(** what is left of the storage that the remaining debts [l] depend on *)
Record left_ok (l : list (Z * Z)) (s : PoolSt * Cache * Positions * Positions) : Prop := {
  lk_cfg : ps_ecfg s.1.1.1 = ps_ecfg p /\ ps_rcfg s.1.1.1 = ps_rcfg p /\ ps_rdata s.1.1.1 = ps_rdata p /\ ch_cfg s.1.1.2 = ps_config p;
  lk_emis : forall i v, (i, v) ∈ l -> ps_edata s.1.1.1 !! (i * 2) = ps_edata p !! (i * 2) /\
    forall x, ps_uemis s.1.1.1 !! (x, i * 2) = ps_uemis p !! (x, i * 2);
  lk_pos : forall i v, (i, v) ∈ l -> get_liab s.1.2 i = v /\ get_liab s.2 i = get_liab (get_pos p bs) i;
  lk_res : forall i v r, (i, v) ∈ l -> ps_list p !! Z.to_nat i = Some r -> ch_res s.1.1.2 !! r = None;
  lk_store : forall r, r ∈ ch_store s.1.1.2 -> is_Some (ch_res s.1.1.2 !! r)
}.

Lemma updated_frame now q x id q' : updated now p q x id q' ->
  ps_ecfg q' = ps_ecfg q /\ ps_rcfg q' = ps_rcfg q /\ ps_rdata q' = ps_rdata q /\
  (forall j, j <> id -> ps_edata q' !! j = ps_edata q !! j) /\ (forall y j, (y, j) <> (x, id) -> ps_uemis q' !! (y, j) = ps_uemis q !! (y, j)).
Proof.
  intros [[_ ->]|(cfg & e & ue & _ & -> & _)]; [done|]. simpl. repeat (split; [done|]). split.
  - intros j Hj. by rewrite lookup_insert_ne.
  - intros y j Hj. by rewrite lookup_insert_ne.
Qed.

Lemma bad_debt_total l : forall s,
  NoDup l.*1 ->
  (forall i v, (i, v) ∈ l -> po_liab pos !! i = Some v) ->
  (forall i v r, (i, v) ∈ l -> ps_list p !! Z.to_nat i = Some r ->
     accruable w a r /\ emis_fits (w_now w) p u (i * 2) /\ emis_fits (w_now w) p bs (i * 2) /\
     (forall d, reserve w a r = Some d -> rd_d_supply d + v <= i128_max)) ->
  left_ok l s ->
  exists s', foldM (bad_debt_step (w_now w) u bs (ps_list p)) s l = Ok s' /\ (forall r, r ∈ ch_store s'.1.1.2 -> is_Some (ch_res s'.1.1.2 !! r)).
Proof.
  induction l as [|[i v] l IH]; intros s Hnd Hin Hfit L; [exists s; split; [done|apply L]|].
  apply NoDup_cons in Hnd as [Hni Hnd].
  pose proof (Hin i v ltac:(left)) as Hiv. pose proof (gd_idx _ G u KLiab i v Hiv) as Hib.
  pose proof (gd_pos _ G u KLiab i v Hiv) as Hv.
  destruct (lookup_lt_is_Some_2 (ps_list p) (Z.to_nat i) ltac:(unfold p; lia)) as [r Hlr].
  destruct (Hfit i v r ltac:(left) Hlr) as (Hac & F1 & F2 & F3).
  destruct (load_total w a r Hr Hac) as (res & cfg & d & Hl & Hra & Hc & Hd & Hri & Hrs & Hds & _). fold p in Hl, Hc.
  assert (rc_index cfg = i) as Hidx. { destruct (cw_idx _ (gd_cfg _ G) _ _ Hlr) as (cfg' & Hc' & Hi'). fold p in Hc'. rewrite Hc in Hc'. injection Hc' as <-. lia. }
  destruct s as [[[q ch] up] bp]. destruct L as [(L1 & L2 & L3 & L4) Lem Lpos Lres Lst]. cbn [fst snd] in *.
  destruct (Lem i v ltac:(left)) as [Le1 Le2]. destruct (Lpos i v ltac:(left)) as [Lp1 Lp2].
  cbn [foldM]. unfold bad_debt_step at 1. cbn [fst snd]. rewrite (list_get_total _ _ _ Hlr) by lia. cbn [bind].
  unfold load_reserve. set (ch0 := if true && _ then _ else _).
  assert (ch_res ch0 = ch_res ch /\ ch_cfg ch0 = ch_cfg ch /\ forall x, x ∈ ch_store ch0 -> x = r \/ x ∈ ch_store ch) as (C1 & C2 & C3).
  { unfold ch0. destruct (true && _); [|by auto]. split; [done|]. split; [done|]. simpl. intros x Hx. apply elem_of_app in Hx as [?|Hx]; [auto|]. apply elem_of_list_singleton in Hx. auto. }
  rewrite C1, (Lres i v r ltac:(left) Hlr), C2, L4. cbn [bind].
  assert (load_res (w_now w) (ps_config p) q r = Ok res) as Hl2.
  { rewrite <- Hl. unfold load_res. by rewrite L2, L3. }
  rewrite Hl2. cbn [bind].
  destruct (tok_of_tid p KLiab r cfg d u G Hc Hd) as (_ & Ha & Hbu & Hsu & Hun). cbn [tid sup_k ebal] in *. rewrite Hidx in *.
  destruct (tok_of_tid p KLiab r cfg d bs G Hc Hd) as (_ & _ & Hbb & _). cbn [tid sup_k ebal] in *. rewrite Hidx in *.
  pose proof (reachable_emis w a Hr) as K. fold p in K.
  (* the user's debt is part of the supply *)
  assert (v + get_liab (get_pos p bs) i <= rd_d_supply d /\ 0 <= get_liab (get_pos p bs) i) as [Hsum Hbs0].
  { pose proof (tok_list p (i * 2) [u; bs] G ltac:(rewrite Ha; eauto)) as Ht. rewrite !sumz_cons, sumz_nil, Hbu, Hbb, Hsu in Ht.
    assert (get_liab (get_pos p u) i = v) as Hv'. { unfold get_liab, getz. unfold pos, positions in Hiv. fold p in Hiv. rewrite Hiv. done. }
    pose proof (pos_ok_getz p bs KLiab i (gd_pos _ G)) as H0. cbn [get_k] in H0. change (getz (po_liab (get_pos p bs)) i) with (get_liab (get_pos p bs) i) in H0.
    assert (NoDup [u; bs]) as Hn2. { apply NoDup_cons. split; [|apply NoDup_singleton]. intros Hx. by apply elem_of_list_singleton in Hx. }
    specialize (Ht Hn2). lia. }
  pose proof (F3 d Hd) as F3'.
  unfold add_liabilities. rewrite (proj2 (Z.eqb_neq v 0)) by lia. cbn [negb]. rewrite ?Hri, ?Hidx.
  unfold upd_d_emis. rewrite ?Hri, ?Hidx, Hrs, Hds, Lp2. rewrite <- Hbb, <- Hsu, <- Hun.
  destruct (emissions_total (w_now w) p q bs (i * 2) (tok_bal p bs (i * 2)) G K F2) as (n1 & q1 & E1 & U1).
  { split; [by rewrite L1|]. split; [done|]. apply Le2. }
  { done. }
  rewrite E1. cbn [bind]. rewrite ?Hbb, ?Hsu, ?Hun.
  rewrite i128_ok_nonneg by lia. cbn [bind]. rewrite i128_ok_nonneg by lia. cbn [bind].
  unfold remove_liabilities. rewrite (proj2 (Z.eqb_neq v 0)) by lia. cbn [negb].
  unfold upd_d_emis, set_d_supply. cbn [r_index r_data rd_d_supply r_scalar set]. rewrite ?Hri, ?Hidx, ?Hrs.
  rewrite Lp1.
  destruct (updated_frame _ _ _ _ _ U1) as (V1 & V2 & V3 & V4 & V5).
  assert (get_liab (get_pos p u) i = v) as Hv'. { unfold get_liab, getz. unfold pos, positions in Hiv. fold p in Hiv. rewrite Hiv. done. }
  destruct (emissions_again (w_now w) p q1 bs u (i * 2) (rd_d_supply d + v) v G K F1) as (n2 & q2 & E2 & U2).
  { rewrite Hsu. lia. }
  { lia. }
  { rewrite V1, L1. destruct U1 as [[U1 _]|(cf & e & ue & U1 & -> & U3 & U4)]; [by left|right].
    exists cf, e. split; [done|]. split; [done|]. split; [simpl; by rewrite lookup_insert|]. split; [done|]. rewrite Hsu in U4. destruct U4 as [?|[?|[?|?]]]; try tauto. lia. }
  { done. }
  { rewrite V5 by congruence. apply Le2. }
  { by rewrite Hbu. }
  rewrite Hun in E2. rewrite E2. cbn [bind].
  destruct (updated_frame _ _ _ _ _ U2) as (W1 & W2 & W3 & W4 & W5).
  rewrite i128_ok_nonneg by lia. cbn [bind]. unfold p_nonneg. rewrite (proj2 (Z.ltb_ge _ 0)) by lia. cbn [bind].
  rewrite i128_ok_nonneg by lia. cbn [bind].
  assert (forall j x, (j, x) ∈ l -> j <> i) as Hji.
  { intros j x Hj ->. apply Hni. apply elem_of_list_fmap. by exists (i, x). }
  apply IH; [done|intros; apply Hin; by right|intros; apply (Hfit i0 v0); [by right|done]|].
  constructor; cbn [fst snd].
  - rewrite W1, W2, W3, V1, V2, V3. split; [done|]. split; [done|]. split; [done|]. simpl. by rewrite C2.
  - intros j x Hj. pose proof (Hji _ _ Hj). rewrite W4, V4 by lia. destruct (Lem j x ltac:(by right)) as [? Hx]. split; [done|].
    intros y. rewrite W5, V5 by (intros [= ? ?]; lia). apply Hx.
  - intros j x Hj. pose proof (Hji _ _ Hj). destruct (Lpos j x ltac:(by right)) as [P1 P2].
    unfold get_liab in *. simpl. rewrite getz_put. rewrite decide_False by congruence. split; [done|]. unfold getz. rewrite lookup_insert_ne by congruence. exact P2.
  - intros j x r' Hj Hr'. simpl. rewrite lookup_insert_ne, C1; [by eapply Lres; [right|]|]. rewrite Hra. intros <-.
    pose proof (Hin j x ltac:(by right)) as Hjx. pose proof (gd_idx _ G u KLiab j x Hjx) as Hjb.
    apply (Hji _ _ Hj). pose proof (NoDup_lookup _ _ _ _ (cw_nodup _ (gd_cfg _ G)) Hlr Hr'). lia.
  - simpl. intros x Hx. rewrite Hra. destruct (decide (x = r)) as [->|Hxr]; [rewrite lookup_insert; eauto|]. rewrite lookup_insert_ne, C1 by done.
    apply Lst. by destruct (C3 x Hx).
Qed.
End baddebt.

(** C27: everybody can hand the debt of a user without collateral to the backstop *)
Theorem C27_bad_debt_possible : forall w sg a u,
  reachable w -> forallb ok_signer sg = true -> ps_init (pool w a) = true ->
  u <> ps_backstop (pool w a) -> po_coll (positions w a u) = ∅ -> po_liab (positions w a u) <> ∅ ->
  (* the interest of the reserves owed can be computed, and 128-bit integers suffice *)
  (forall (i : nat) r, reserve_list w a !! i = Some r -> owed (account w a u) r <> 0 ->
     accruable w a r /\
     emis_fits (w_now w) (pool w a) u (Z.of_nat i * 2) /\ emis_fits (w_now w) (pool w a) (ps_backstop (pool w a)) (Z.of_nat i * 2) /\
     (forall d, reserve w a r = Some d -> rd_d_supply d + owed (account w a u) r <= i128_max)) ->
  succeeds w (OPool sg a (PBadDebt u)).
Proof.
  intros w sg a u Hr Hok Hi Hne Hc Hl Hfit. pose proof (reachable_good w a Hr Hi) as G.
  assert (w_pools w !! a = Some (pool w a)) as Hp. { unfold pool in *. destruct (w_pools w !! a); [done|]. discriminate Hi. }
  unfold succeeds, exec. rewrite Hok, Hp. cbn [ty_pop andb unwrap bind]. unfold p_exec. cbn [px_p px_x]. rewrite Hi. cbn [negb].
  unfold on_pool. cbn [px_p px_x]. unfold p_bad_debt. fold (positions w a u). rewrite (proj2 (Z.eqb_neq u _)) by done. cbn [negb].
  rewrite (bool_decide_true (po_coll _ = ∅)) by done. rewrite (bool_decide_false (po_liab _ = ∅)) by done. cbn [negb andb].
  change (c_now (ctx w sg)) with (w_now w).
  destruct (bad_debt_total w a u Hr G Hne (entries (po_liab (positions w a u))) (pool w a, pool_load (pool w a), positions w a u, get_pos (pool w a) (ps_backstop (pool w a)))) as ([[[q ch] up] bp] & E & Hst).
  - apply entries_fst_NoDup.
  - intros i v Hv. by apply elem_of_entries in Hv.
  - intros i v r Hv Hlr. apply elem_of_entries in Hv. pose proof (gd_idx _ G u KLiab i v Hv) as Hib.
    destruct (owed_at w a u (Z.to_nat i) r G Hlr) as (O1 & _). rewrite Z2Nat.id in O1 by lia.
    assert (owed (account w a u) r = v) as Hov. { rewrite O1. unfold get_liab, getz. by rewrite Hv. }
    pose proof (gd_pos _ G u KLiab i v Hv). specialize (Hfit (Z.to_nat i) r Hlr). rewrite Hov, Z2Nat.id in Hfit by lia. apply Hfit. lia.
  - constructor; cbn [fst snd]; [done|done| | |intros r Hx; by apply elem_of_nil in Hx].
    + intros i v Hv. apply elem_of_entries in Hv. split; [|done]. unfold get_liab, getz. by rewrite Hv.
    + intros i v r _ _. apply lookup_empty.
  - rewrite E. cbn [bind]. unfold store_cached. destruct (store_total ch (ch_store ch) Hst q) as [q' ->]. cbn [bind]. eauto.
Qed.

(** ** Liquidations *)
(** [b] bTokens and [d] dTokens of reserve [r] can be valued: the reserve's interest can be
    computed, its oracle price is not negative and at most a day old, its liability factor is
    not zero if there is debt, and 128-bit integers suffice *)
Definition valued (w : World) (a r : Addr) (b d : Z) : Prop :=
  let now := w_now w in let p := pool w a in let x := w_ext w in
  accruable w a r /\
  (exists v t, o_price (x_orc x) !! (pc_oracle (ps_config p), r) = Some (v, t) /\ 0 <= v /\ 0 <= t /\ now <= t + 86400 <= u64_max) /\
  b * b_rate_now w a r <= i128_max /\ b_assets now p r b * 10000000 <= i128_max /\ price_of p x r * b_assets now p r b <= i128_max /\
  d * d_rate_now w a r <= i128_max /\ d_assets now p r d * 10000000 <= i128_max /\
  (d <> 0 -> 0 < rc_l_factor (cfg_of p r) /\
     price_of p x r * cdiv (d_assets now p r d * 10000000) (rc_l_factor (cfg_of p r)) <= i128_max).

Lemma cdiv_ge x y k : 0 < y <= k -> 0 <= x -> x <= cdiv (x * k) y.
Proof. intros H Hx. pose proof (cdiv_spec (x * k) y ltac:(lia)). nia. Qed.
Lemma div_le_self x y k : 0 <= y <= k -> 0 < k -> 0 <= x -> 0 <= x * y / k <= x.
Proof. intros H Hk Hx. split; [apply Z.div_pos; nia|]. apply Z.div_le_upper_bound; nia. Qed.

Lemma health_one_total w a pos cb cr lb lr ch i r :
  reachable w -> ps_init (pool w a) = true -> reserve_list w a !! Z.to_nat i = Some r -> 0 <= i ->
  (forall k j, 0 <= getz (get_k k pos) j) ->
  ch_cfg ch = ps_config (pool w a) -> ch_res ch !! r = None -> ch_price ch !! r = None ->
  (get_coll pos i <> 0 \/ get_liab pos i <> 0 -> valued w a r (get_coll pos i) (get_liab pos i)) ->
  let now := w_now w in let p := pool w a in let x := w_ext w in
  0 <= cb -> 0 <= cr -> 0 <= lb -> 0 <= lr ->
  cb + coll_eff1 now p x r (get_coll pos i) <= i128_max -> cr + coll_raw1 now p x r (get_coll pos i) <= i128_max ->
  lb + liab_eff1 now p x r (get_liab pos i) <= i128_max -> lr + liab_raw1 now p x r (get_liab pos i) <= i128_max ->
  exists ch', health_one now p x pos ((cb, cr, lb, lr), ch) (i, r) =
      Ok ((cb + coll_eff1 now p x r (get_coll pos i), cr + coll_raw1 now p x r (get_coll pos i),
           lb + liab_eff1 now p x r (get_liab pos i), lr + liab_raw1 now p x r (get_liab pos i)), ch') /\
    0 <= coll_eff1 now p x r (get_coll pos i) /\ 0 <= coll_raw1 now p x r (get_coll pos i) /\
    0 <= liab_eff1 now p x r (get_liab pos i) /\ 0 <= liab_raw1 now p x r (get_liab pos i) /\
    ch_cfg ch' = ch_cfg ch /\ (forall q, q <> r -> ch_res ch' !! q = ch_res ch !! q /\ ch_price ch' !! q = ch_price ch !! q).
Proof.
  intros Hr Hi Hl Hi0 Hpos Hcf Hres Hprice Hval now p x P1 P2 P3 P4 S1 S2 S3 S4.
  pose proof (reachable_good w a Hr Hi) as G.
  unfold health_one. cbn [fst snd]. pose proof (Hpos KColl i) as Hb. pose proof (Hpos KLiab i) as Hd. cbn [get_k] in Hb, Hd.
  change (getz (po_coll pos) i) with (get_coll pos i) in Hb. change (getz (po_liab pos) i) with (get_liab pos i) in Hd.
  set (b := get_coll pos i) in *. set (d := get_liab pos i) in *. clearbody b d.
  destruct (zero_values now p x r) as (Z1 & Z2 & Z3 & Z4).
  destruct ((b =? 0) && (d =? 0)) eqn:Ez.
  { apply andb_true_iff in Ez as [->%Z.eqb_eq ->%Z.eqb_eq]. exists ch. rewrite Z1, Z2, Z3, Z4, !Z.add_0_r. repeat (split; [done|]). done. }
  assert (b <> 0 \/ d <> 0) as Hnz. { apply andb_false_iff in Ez as [?%Z.eqb_neq|?%Z.eqb_neq]; auto. }
  destruct (Hval Hnz) as (Hac & (v & t & Hpr & Hv & Ht0 & Ht) & V1 & V2 & V3 & V4 & V5 & V6). fold now p x in Hpr, Ht, V2, V3, V5, V6.
  destruct (load_res_total w a r Hr Hac) as (res & Hlo & Hra & _). fold now p in Hlo.
  pose proof (data_at_load _ _ _ _ Hlo) as (HD & _ & Hs & Hc & Hlf & _).
  pose proof (load_res_fields _ _ _ _ _ Hlo) as (cfg & d0 & Hcfg & _).
  destruct (data_rates now p r cfg G Hcfg) as [R1 R2]. pose proof (cw_valid _ (gd_cfg _ G) _ _ Hcfg) as Hcb.
  assert (cfg_of p r = cfg) as Hco by (unfold cfg_of; by rewrite Hcfg).
  assert (price_of p x r = v) as Hpv by (unfold price_of; by rewrite Hpr).
  assert (0 < 10 ^ rc_decimals cfg) as Hsc. { apply Z.pow_pos_nonneg; [lia|]. destruct Hcb; lia. }
  fold p in Hcf. unfold load_reserve. cbn [andb]. rewrite Hres, Hcf. rewrite Hlo. cbn [bind].
  unfold load_price. rewrite Hra, Hprice, Hcf, Hpr. cbn [unwrap bind snd fst]. rewrite u64_fits by lia. cbn [bind].
  rewrite (proj2 (Z.ltb_ge _ _)) by lia. cbn [negb bind].
  unfold b_rate_now, d_rate_now in *. fold now p in V1, V4.
  assert (0 <= b_assets now p r b) as Hba. { unfold b_assets. apply Z.div_pos; unfold SCALAR_9 in *; nia. }
  assert (0 <= d_assets now p r d) as Hda. { unfold d_assets. apply cdiv_nonneg; unfold SCALAR_9 in *; nia. }
  rewrite Hpv, Hco in *. unfold SCALAR_9 in R1, R2.
  destruct Hcb as (_ & Hcf1 & Hlf1 & _).
  pose proof (div_le_self (b_assets now p r b) (rc_c_factor cfg) 10000000 ltac:(lia) ltac:(lia) Hba) as Hce.
  assert (0 <= v * (b_assets now p r b * rc_c_factor cfg / 10000000) <= v * b_assets now p r b) as Hm by nia.
  assert (0 <= coll_eff1 now p x r b /\ 0 <= coll_raw1 now p x r b) as [N1 N2].
  { unfold coll_eff1, coll_raw1. rewrite Hpv, Hco. split; apply Z.div_pos; nia. }
  assert ((if 0 <? b then
         let? ea := eff_asset_from_b res b in let? v0 := fmul_floor v ea (r_scalar res) in let? cb0 := i128 (cb + v0) in
         let? ra := asset_from_b (r_data res) b in let? w0 := fmul_floor v ra (r_scalar res) in let? cr0 := i128 (cr + w0) in Ok (cb0, cr0)
       else Ok (cb, cr)) = Ok (cb + coll_eff1 now p x r b, cr + coll_raw1 now p x r b)) as ->.
  { destruct (Z.ltb_spec 0 b) as [Hb0|Hb0]; [|replace b with 0 by lia; by rewrite Z1, Z2, !Z.add_0_r].
    unfold eff_asset_from_b, asset_from_b. rewrite <- HD, Hc, Hs, ?Hco. unfold SCALAR_9, SCALAR_7.
    rewrite fmul_floor_fits by nia. cbn [bind]. fold (b_assets now p r b). rewrite fmul_floor_fits by nia. cbn [bind].
    rewrite fmul_floor_fits by lia. cbn [bind]. unfold coll_eff1, coll_raw1 in *. rewrite ?Hpv, ?Hco in *. rewrite i128_ok_nonneg by lia. cbn [bind].
    rewrite fmul_floor_fits by nia. cbn [bind]. rewrite i128_ok_nonneg by lia. done. }
  cbn [bind].
  assert (0 <= liab_eff1 now p x r d /\ 0 <= liab_raw1 now p x r d /\
   (if 0 <? d then
         let? ea := eff_asset_from_d res d in let? v0 := fmul_ceil v ea (r_scalar res) in let? lb0 := i128 (lb + v0) in
         let? ra := asset_from_d (r_data res) d in let? w0 := fmul_ceil v ra (r_scalar res) in let? lr0 := i128 (lr + w0) in Ok (lb0, lr0)
       else Ok (lb, lr)) = Ok (lb + liab_eff1 now p x r d, lr + liab_raw1 now p x r d)) as (N3 & N4 & ->).
  { destruct (Z.ltb_spec 0 d) as [Hd0|Hd0]; [|replace d with 0 by lia; by rewrite Z3, Z4, !Z.add_0_r].
    destruct (V6 ltac:(lia)) as [Hl0 V7].
    pose proof (cdiv_ge (d_assets now p r d) (rc_l_factor cfg) 10000000 ltac:(lia) Hda) as Hge.
    assert (0 <= v * d_assets now p r d <= v * cdiv (d_assets now p r d * 10000000) (rc_l_factor cfg)) as Hm2 by nia.
    assert (0 <= liab_eff1 now p x r d /\ 0 <= liab_raw1 now p x r d) as [N3 N4].
    { unfold liab_eff1, liab_raw1. rewrite Hpv, Hco. split; apply cdiv_nonneg; lia. }
    split; [done|]. split; [done|].
    unfold eff_asset_from_d, asset_from_d. rewrite <- HD, Hlf, Hs, ?Hco. unfold SCALAR_9, SCALAR_7.
    rewrite fmul_ceil_fits' by nia. cbn [bind]. fold (d_assets now p r d). rewrite fdiv_ceil_fits by lia. cbn [bind].
    rewrite fmul_ceil_fits' by lia. cbn [bind]. unfold liab_eff1, liab_raw1 in *. rewrite ?Hpv, ?Hco in *. rewrite i128_ok_nonneg by lia. cbn [bind].
    rewrite fmul_ceil_fits' by lia. cbn [bind]. rewrite i128_ok_nonneg by lia. done. }
  cbn [bind]. eexists. split; [done|]. repeat (split; [done|]).
  intros q Hq. simpl. rewrite Hra, !lookup_insert_ne by done. done.
Qed.

Lemma health_total w a pos l : forall cb cr lb lr ch,
  reachable w -> ps_init (pool w a) = true -> NoDup l.*2 ->
  (forall i r, (i, r) ∈ l -> 0 <= i /\ reserve_list w a !! Z.to_nat i = Some r) ->
  (forall k j, 0 <= getz (get_k k pos) j) ->
  ch_cfg ch = ps_config (pool w a) -> (forall i r, (i, r) ∈ l -> ch_res ch !! r = None /\ ch_price ch !! r = None) ->
  (forall i r, (i, r) ∈ l -> get_coll pos i <> 0 \/ get_liab pos i <> 0 -> valued w a r (get_coll pos i) (get_liab pos i)) ->
  let now := w_now w in let p := pool w a in let x := w_ext w in
  (forall i r, (i, r) ∈ l -> 0 <= coll_eff1 now p x r (get_coll pos i) /\ 0 <= coll_raw1 now p x r (get_coll pos i) /\
     0 <= liab_eff1 now p x r (get_liab pos i) /\ 0 <= liab_raw1 now p x r (get_liab pos i)) ->
  0 <= cb -> 0 <= cr -> 0 <= lb -> 0 <= lr ->
  cb + sumz (fun ia => coll_eff1 now p x (snd ia) (get_coll pos (fst ia))) l <= i128_max ->
  cr + sumz (fun ia => coll_raw1 now p x (snd ia) (get_coll pos (fst ia))) l <= i128_max ->
  lb + sumz (fun ia => liab_eff1 now p x (snd ia) (get_liab pos (fst ia))) l <= i128_max ->
  lr + sumz (fun ia => liab_raw1 now p x (snd ia) (get_liab pos (fst ia))) l <= i128_max ->
  exists s', foldM (health_one now p x pos) ((cb, cr, lb, lr), ch) l = Ok s'.
Proof.
  induction l as [|[i r] l IH]; intros cb cr lb lr ch Hr Hi Hnd Hl Hpos Hcf Hno Hval now p x Hnn P1 P2 P3 P4 S1 S2 S3 S4; [by eexists|].
  rewrite !sumz_cons in S1, S2, S3, S4. cbn [fst snd] in S1, S2, S3, S4. apply NoDup_cons in Hnd as [Hnin Hnd].
  destruct (Hl i r ltac:(left)) as [Hi0 Hlr]. destruct (Hno i r ltac:(left)) as [No1 No2]. destruct (Hnn i r ltac:(left)) as (A1 & A2 & A3 & A4).
  assert (0 <= sumz (fun ia => coll_eff1 now p x (snd ia) (get_coll pos (fst ia))) l /\ 0 <= sumz (fun ia => coll_raw1 now p x (snd ia) (get_coll pos (fst ia))) l /\
    0 <= sumz (fun ia => liab_eff1 now p x (snd ia) (get_liab pos (fst ia))) l /\ 0 <= sumz (fun ia => liab_raw1 now p x (snd ia) (get_liab pos (fst ia))) l) as (B1 & B2 & B3 & B4).
  { repeat split; apply sumz_nonneg; intros [j q] Hj; apply (Hnn j q); by right. }
  destruct (health_one_total w a pos cb cr lb lr ch i r Hr Hi Hlr Hi0 Hpos Hcf No1 No2 (Hval i r ltac:(left))) as (ch' & E & _ & _ & _ & _ & C1 & C2); fold now p x; try lia.
  cbn [foldM]. fold now p x in E. rewrite E. cbn [bind]. apply IH; try done; fold now p x; try lia.
  - intros j q Hj. apply Hl. by right.
  - rewrite C1; exact Hcf.
  - intros j q Hj. assert (q <> r) as Hq. { intros ->. apply Hnin. apply elem_of_list_fmap. by exists (j, r). }
    destruct (C2 q Hq) as [-> ->]. apply (Hno j q). by right.
  - intros j q Hj. apply Hval. by right.
  - intros j q Hj. apply Hnn. by right.
Qed.

Lemma indexed_snd (l : list Addr) k : (indexed k l).*2 = l.
Proof. revert k. induction l as [|a l IH]; intros k; [done|]. cbn. by rewrite IH. Qed.

(** the values of the position, when it can be valued *)
Lemma position_total w a u dec :
  reachable w -> ps_init (pool w a) = true ->
  o_dec (x_orc (w_ext w)) !! pc_oracle (ps_config (pool w a)) = Some dec -> dec <= 18 ->
  let now := w_now w in let p := pool w a in let x := w_ext w in let pos := positions w a u in
  (forall r, r ∈ reserve_list w a -> 0 <= price_of p x r) ->
  (forall (i : nat) r, reserve_list w a !! i = Some r -> collateral (account w a u) r <> 0 \/ owed (account w a u) r <> 0 ->
     valued w a r (collateral (account w a u) r) (owed (account w a u) r)) ->
  raw_coll now p x pos <= i128_max -> eff_liab now p x pos <= i128_max ->
  exists d ch, position_data now p x (pool_load p) pos = Ok (d, ch).
Proof.
  intros Hr Hi Hdec Hd18 now p x pos Hpr Hval F1 F2. pose proof (reachable_good w a Hr Hi) as G. fold p in G.
  pose proof (reachable_dec _ _ _ Hr Hdec) as Hd0.
  assert (forall k j, 0 <= getz (get_k k pos) j) as Hpos by (intros k j; apply pos_ok_getz, G).
  assert (forall (i : nat) r, reserve_list w a !! i = Some r -> get_liab pos (Z.of_nat i) <> 0 -> 0 < rc_l_factor (cfg_of p r)) as Hlf.
  { intros i r Hl Hn. destruct (owed_at w a u i r G Hl) as (O1 & O2 & _). fold pos in O1, O2. rewrite <- O1 in Hn.
    destruct (Hval i r Hl ltac:(by right)) as (_ & _ & _ & _ & _ & _ & _ & V). by apply V. }
  destruct (raw_bounds now p x pos G Hpos Hpr Hlf) as [B1 B2].
  unfold position_data. unfold load_dec, pool_load at 1. cbn [ch_dec ch_cfg]. fold p x in Hdec. change (ch_cfg (pool_load p)) with (ps_config p). rewrite Hdec. cbn [unwrap bind].
  unfold pow10. rewrite i128_ok_nonneg; swap 1 2.
  { split; [apply Z.pow_nonneg; lia|]. pose proof (Z.pow_le_mono_r 10 dec 18 ltac:(lia) Hd18). unfold i128_max. lia. }
  cbn [bind].
  assert (forall i r, (i, r) ∈ indexed 0 (ps_list p) -> 0 <= i /\ reserve_list w a !! Z.to_nat i = Some r) as Hin.
  { intros i r Hx. apply indexed_in in Hx as [H1 H2]. rewrite Z.sub_0_r in H2. done. }
  destruct (health_total w a pos (indexed 0 (ps_list p)) 0 0 0 0 (pool_load p <| ch_dec := Some dec |>) Hr Hi) as [[[[[cb cr] lb] lr] ch] E].
  - rewrite indexed_snd. apply (cw_nodup _ (gd_cfg _ G)).
  - exact Hin.
  - exact Hpos.
  - done.
  - intros i r _. split; apply lookup_empty.
  - intros i r Hx Hn. destruct (Hin i r Hx) as [Hi0 Hl]. destruct (owed_at w a u (Z.to_nat i) r G Hl) as (O1 & O2 & _).
    fold pos in O1, O2. rewrite Z2Nat.id in O1, O2 by done. rewrite <- O1, <- O2 in *. by eapply Hval.
  - fold now p x. intros i r Hx. destruct (Hin i r Hx) as [Hi0 Hl]. 
    destruct (cw_idx _ (gd_cfg _ G) _ _ Hl) as (cfg & Hc & _). fold p in Hc.
    assert (cfg_of p r = cfg) as Hco by (unfold cfg_of; by rewrite Hc). destruct (cw_valid _ (gd_cfg _ G) _ _ Hc) as (D1 & D2 & D3 & _).
    destruct (data_rates now p r cfg G Hc) as [R1 R2]. unfold SCALAR_9 in R1, R2.
    assert (0 < 10 ^ rc_decimals cfg) by (apply Z.pow_pos_nonneg; lia). specialize (Hpr r ltac:(by eapply elem_of_list_lookup_2)). fold p x in Hpr.
    pose proof (Hpos KColl i) as Hb. pose proof (Hpos KLiab i) as Hd. cbn [get_k] in Hb, Hd.
    assert (0 <= b_assets now p r (get_coll pos i)) by (unfold b_assets, get_coll; apply Z.div_pos; nia).
    assert (0 <= d_assets now p r (get_liab pos i)) as Hda by (unfold d_assets, get_liab; apply cdiv_nonneg; nia).
    unfold coll_eff1, coll_raw1, liab_eff1, liab_raw1. rewrite Hco.
    split; [apply Z.div_pos; [|lia]; apply Z.mul_nonneg_nonneg; [lia|]; apply Z.div_pos; nia|].
    split; [apply Z.div_pos; nia|].
    destruct (Z.eq_dec (get_liab pos i) 0) as [Hz|Hz].
    { destruct (zero_values now p x r) as (_ & _ & Z3 & Z4). unfold liab_eff1, liab_raw1 in Z3, Z4. rewrite Hco in Z3, Z4. rewrite Hz, Z3, Z4. lia. }
    specialize (Hlf (Z.to_nat i) r Hl). rewrite Z2Nat.id, Hco in Hlf by done. specialize (Hlf Hz).
    split; apply cdiv_nonneg; try lia; apply Z.mul_nonneg_nonneg; try lia. apply cdiv_nonneg; lia.
  - lia.
  - lia.
  - lia.
  - lia.
  - fold now p x. change (0 + eff_coll now p x pos <= i128_max). lia.
  - fold now p x. change (0 + raw_coll now p x pos <= i128_max). lia.
  - fold now p x. change (0 + eff_liab now p x pos <= i128_max). lia.
  - fold now p x. change (0 + raw_liab now p x pos <= i128_max). lia.
  - fold now p x in E. rewrite E. cbn [bind]. eauto.
Qed.

Lemma quote_total l pct sc es m : 0 < sc -> 0 <= pct ->
  (forall i v, (i, v) ∈ es -> 0 <= i /\ is_Some (l !! Z.to_nat i) /\ 0 <= v /\ v * pct <= i128_max) ->
  exists m', foldM (quote l pct sc) m es = Ok m'.
Proof.
  intros Hsc Hp H. apply foldM_total. intros s [i v] Hin. destruct (H i v Hin) as (H1 & [r H2] & H3 & H4).
  unfold quote. cbn [fst snd]. rewrite (list_get_total _ _ _ H2 H1). cbn [bind]. rewrite fmul_ceil_fits' by nia. cbn [bind]. eauto.
Qed.

(** C27: an insolvent user can be liquidated completely *)
Theorem C27_insolvent_liquidatable : forall w sg a u dec,
  reachable w -> forallb ok_signer sg = true -> ps_init (pool w a) = true ->
  u <> a -> u <> ps_backstop (pool w a) -> auction w a 0 u = None -> 0 <= w_seq w < u32_max ->
  o_dec (x_orc (w_ext w)) !! pc_oracle (ps_config (pool w a)) = Some dec -> dec <= 18 ->
  let now := w_now w in let p := pool w a in let x := w_ext w in let pos := positions w a u in
  (forall r, r ∈ reserve_list w a -> 0 <= price_of p x r) ->
  (forall (i : nat) r, reserve_list w a !! i = Some r -> collateral (account w a u) r <> 0 \/ owed (account w a u) r <> 0 ->
     valued w a r (collateral (account w a u) r) (owed (account w a u) r) /\
     collateral (account w a u) r * 10 ^ dec <= i128_max /\ owed (account w a u) r * 10 ^ dec <= i128_max) ->
  (* the collateral is worth something, but not more than the debt *)
  0 < raw_coll now p x pos <= raw_liab now p x pos ->
  2 * eff_liab now p x pos * 10 ^ dec <= i128_max ->
  succeeds w (OPool sg a (PNewLiq u 100)).
Proof.
  intros w sg a u dec Hr Hok Hi Ha Hb Hau Hseq Hdec Hd18 now p x pos Hpr Hval Hins Hfit.
  pose proof (reachable_good w a Hr Hi) as G. fold p in G. pose proof (reachable_dec _ _ _ Hr Hdec) as Hd0.
  assert (w_pools w !! a = Some p) as Hp. { unfold p, pool in *. destruct (w_pools w !! a); [done|]. discriminate Hi. }
  assert (0 < 10 ^ dec) as Hs by (by apply Z.pow_pos_nonneg).
  assert (10 ^ dec <= 10 ^ 18) as Hs18 by (by apply Z.pow_le_mono_r).
  assert (forall k j, 0 <= getz (get_k k pos) j) as Hpos by (intros k j; apply pos_ok_getz, G).
  assert (forall (i : nat) r, reserve_list w a !! i = Some r -> get_liab pos (Z.of_nat i) <> 0 -> 0 < rc_l_factor (cfg_of p r)) as Hlf.
  { intros i r Hl Hn. destruct (owed_at w a u i r G Hl) as (O1 & O2 & _). fold pos in O1, O2. rewrite <- O1 in Hn.
    destruct (Hval i r Hl ltac:(by right)) as [(_ & _ & _ & _ & _ & _ & _ & V) _]. by apply V. }
  destruct (raw_bounds now p x pos G Hpos Hpr Hlf) as [B1 B2].
  destruct (eff_nonneg now p x pos G (fun k i _ _ => Hpos k _) Hpr Hlf) as [B3 B4].
  destruct (position_total w a u dec Hr Hi Hdec Hd18 Hpr) as (d & ch & E); [intros i r Hl Hn; by destruct (Hval i r Hl Hn)|fold now p x pos; nia|fold now p x pos; nia|].
  fold now p x pos in E.
  eapply (position_data_spec now p x (pool_load p) pos ∅) in E as Es; [|apply pool_load_cwf|done|apply G|apply pool_load_pwf|exact Hpos].
  destruct Es as (_ & _ & _ & D1 & D2 & D3 & D4 & (dec' & Hdec' & D5) & _). assert (dec' = dec) by (fold p x in Hdec; congruence). subst dec'.
  assert (flush p (pool_load p) ∅ = p) as Hfl. { rewrite flush_fresh. rewrite (left_id_L ∅ (∪)). by destruct p. }
  rewrite Hfl in D1, D2, D3, D4.
  unfold succeeds, exec. rewrite Hok, Hp. cbn [ty_pop andb unwrap bind]. unfold p_exec. cbn [px_p px_x]. fold p in Hi. rewrite Hi. cbn [negb].
  unfold create_liquidation. rewrite (proj2 (Z.eqb_neq u a)), (proj2 (Z.eqb_neq u (ps_backstop p))) by done. cbn [orb negb].
  unfold create_user_liq. unfold has_auction. unfold auction in Hau. fold p in Hau. rewrite Hau. rewrite bool_decide_false by (by intros [? ?]). cbn [negb].
  change (100 <? 100) with false. change (100 =? 0) with false. cbn [orb negb]. change (c_seq (ctx w sg)) with (w_seq w). change (c_now (ctx w sg)) with now.
  unfold u32. rewrite (proj2 (in_u32_iff (w_seq w + 1))) by lia. cbn [bind]. change (get_pos p u) with pos. fold x. rewrite E. cbn [bind].
  destruct d as [Cb Cr Lb Lr sc]. cbn [hd_coll_base hd_coll_raw hd_liab_base hd_liab_raw hd_scalar] in *.
  rewrite <- D1, <- D2, <- D3, <- D4 in *. clear D1 D2 D3 D4. rewrite D5 in *. clear D5. set (S := 10 ^ dec) in *. clearbody S.
  rewrite (proj2 (Z.ltb_ge Lb Cb)) by lia. cbn [negb].
  assert (0 <= Lb * S) by nia. assert (Lb <= Lb * S) by nia.
  assert (0 <= 100 * S <= i128_max) as F0. { unfold i128_max. lia. }
  assert (liq_estimate (mkPosData Cb Cr Lb Lr S) 100 = Ok (S, Lr * (cdiv ((S - cdiv (Cb * S / Cr * S) (Lb * S / Lr)) * S) (2 * S) + S) / S, S) /\
    Cr <= Lr * (cdiv ((S - cdiv (Cb * S / Cr * S) (Lb * S / Lr)) * S) (2 * S) + S) / S) as [EE Hge].
  { unfold liq_estimate. cbn [hd_coll_base hd_coll_raw hd_liab_base hd_liab_raw hd_scalar].
    rewrite i128_ok_nonneg by lia. cbn [bind]. rewrite fdiv_floor_fits by nia. cbn [bind]. rewrite fdiv_floor_fits by nia. cbn [bind].
    pose proof (div_le_self S Cb Cr ltac:(lia) ltac:(lia) ltac:(lia)) as Hcf. rewrite (Z.mul_comm S Cb) in Hcf.
    assert (S <= Lb * S / Lr) as Hlf1. { apply Z.div_le_lower_bound; nia. }
    set (cf := Cb * S / Cr) in *. set (lf := Lb * S / Lr) in *.
    assert (0 <= cf * S <= S * S) as Hcs by nia. assert (S * S <= 10 ^ 36) as Hss by (change (10 ^ 36) with (10 ^ 18 * 10 ^ 18); nia).
    rewrite fdiv_ceil_fits by (unfold i128_max; lia). cbn [bind].
    assert (0 <= cdiv (cf * S) lf <= S) as Hq. { split; [apply cdiv_nonneg; nia|]. apply cdiv_le_iff; nia. }
    set (q := cdiv (cf * S) lf) in *. rewrite i128_ok_nonneg by (unfold i128_max; lia). cbn [bind].
    rewrite i128_ok_nonneg by (unfold i128_max; lia). cbn [bind].
    assert (0 <= (S - q) * S <= S * S) as Hqs by nia.
    rewrite fdiv_ceil_fits by (unfold i128_max; lia). cbn [bind].
    assert (0 <= cdiv ((S - q) * S) (2 * S) <= S) as Hinc. { split; [apply cdiv_nonneg; nia|]. apply cdiv_le_iff; nia. }
    set (inc := cdiv ((S - q) * S) (2 * S)) in *. rewrite i128_ok_nonneg by (unfold i128_max; lia). cbn [bind].
    assert (Z.quot (100 * S) 100 = S) as ->. { rewrite Z.quot_div_nonneg by lia. rewrite Z.mul_comm. apply Z.div_mul. lia. }
    rewrite fmul_floor_fits by nia. cbn [bind]. rewrite Z.div_mul by lia.
    assert (0 <= Lr * (inc + S) <= 2 * Lb * S) as Hw by nia.
    rewrite fmul_floor_fits by lia. cbn [bind].
    assert (Lr <= Lr * (inc + S) / S) as Hw2. { apply Z.div_le_lower_bound; nia. }
    assert (Lr * (inc + S) / S <= 2 * Lr) as Hw3. { apply Z.div_le_upper_bound; nia. }
    set (ww := Lr * (inc + S) / S) in *.
    rewrite fdiv_ceil_fits by nia. cbn [bind].
    assert (S <= cdiv (ww * S) Cr) as Hwp. { pose proof (cdiv_spec (ww * S) Cr ltac:(lia)). nia. }
    split; [|lia]. f_equal. f_equal. destruct (Z.ltb_spec S (cdiv (ww * S) Cr)); lia. }
  rewrite EE. cbn [bind].
  assert (forall m : gmap Z Z, (m = po_coll pos \/ m = po_liab pos) -> forall i v, (i, v) ∈ entries m -> 0 <= i /\ is_Some (ps_list p !! Z.to_nat i) /\ 0 <= v /\ v * S <= i128_max) as Hq.
  { intros m Hm i v Hv. apply elem_of_entries in Hv.
    assert (exists k, (k = KColl \/ k = KLiab) /\ get_k k pos !! i = Some v) as (k & Hk & Hkv) by (destruct Hm as [->| ->]; [exists KColl|exists KLiab]; auto).
    pose proof (gd_idx _ G u k i v Hkv) as Hib. pose proof (gd_pos _ G u k i v Hkv) as Hv0. split; [lia|].
    destruct (lookup_lt_is_Some_2 (ps_list p) (Z.to_nat i) ltac:(lia)) as [r Hlr]. split; [eauto|]. split; [lia|].
    destruct (owed_at w a u (Z.to_nat i) r G Hlr) as (O1 & O2 & _). fold pos in O1, O2. rewrite Z2Nat.id in O1, O2 by lia.
    unfold get_liab, get_coll, getz in O1, O2.
    destruct Hk as [-> | ->]; cbn [get_k] in Hkv.
    - rewrite Hkv in O2. change (collateral (account w a u) r = v) in O2. destruct (Hval _ _ Hlr ltac:(left; rewrite O2; lia)) as (_ & Hc & _). rewrite O2 in Hc. exact Hc.
    - rewrite Hkv in O1. change (owed (account w a u) r = v) in O1. destruct (Hval _ _ Hlr ltac:(right; rewrite O1; lia)) as (_ & _ & Hc). rewrite O1 in Hc. exact Hc. }
  destruct (quote_total (ps_list p) S S (entries (po_coll pos)) ∅ Hs ltac:(lia) (Hq _ ltac:(by left))) as [m1 E1]. rewrite E1. cbn [bind].
  destruct (quote_total (ps_list p) S S (entries (po_liab pos)) ∅ Hs ltac:(lia) (Hq _ ltac:(by right))) as [m2 E2]. rewrite E2. cbn [bind].
  change (100 =? 100) with true. cbn iota. rewrite (proj2 (Z.ltb_ge _ Cr)) by lia. cbn [negb bind]. eauto.
Qed.
