(** * Prices are at most a day old: C57; the lot of a bad debt auction: C24 *)
From Verif Require Import Base Types Token Emitter Factory Backstop PoolReserve PoolUser PoolHealth
  PoolAuction PoolSubmit PoolEmis PoolAdmin World Facts XMove Spec PoolFrame PoolCfg PoolAccrue PoolTrace PoolInv AuctionFacts
  PoolSim PoolReq PoolHF PoolOps PoolLiq PoolReach PoolTx FrameFacts PropsAdmin BackMoves BackInv PropsBackstop PropsBackstop2
  PropsPool1 PropsPool2 PropsPool3 PropsPool4 PropsPool5 PropsPool6 PropsPool7.

(** ** Specification *)

(** the pool's oracle reports a price for [r] that is at most 24 hours old *)
Definition price_of_today (w : World) (a r : Addr) : Prop :=
  exists v t, o_price (x_orc (w_ext w)) !! (pc_oracle (ps_config (pool w a)), r) = Some (v, t) /\ w_now w <= t + 24 * 60 * 60.
(** the oracle value (in base units, rounded down) of all that [u] owes of [r], with interest *)
Definition debt_value (w : World) (a u r : Addr) : Z :=
  price_of (pool w a) (w_ext w) r * cdiv (owed (account w a u) r * d_rate_now w a r) 1000000000 / 10 ^ rc_decimals (cfg_of (pool w a) r).

(** ** Lemmas *)
Lemma account_index w a k u (i : nat) r : good (pool w a) -> reserve_list w a !! i = Some r ->
  acc_k k (account w a u) r = getz (get_k k (positions w a u)) (Z.of_nat i).
Proof. intros G H. rewrite account_shares by done. apply shares_at; [apply G|done]. Qed.
Lemma account_listed w a k u r : good (pool w a) -> acc_k k (account w a u) r <> 0 ->
  exists i : nat, reserve_list w a !! i = Some r.
Proof.
  intros G H. rewrite account_shares in H by done. unfold shares in H. destruct (ps_rcfg (pool w a) !! r) as [cfg|] eqn:Ec; [|done].
  by apply elem_of_list_lookup, (cw_list _ (gd_cfg _ G) _ _ Ec).
Qed.
Lemma list_get_ok l i a : list_get l i = Ok a -> 0 <= i /\ l !! Z.to_nat i = Some a.
Proof.
  unfold list_get. destruct (Z.ltb_spec i 0); [done|]. destruct (l !! Z.to_nat i) eqn:E; [|done]. by intros [= ->].
Qed.

(** value of an entry of the liabilities *)
Definition entry_value (now : Z) (p : PoolSt) (x : Ext) (e : Z * Z) : Z :=
  match ps_list p !! Z.to_nat e.1 with
  | Some r => price_of p x r * d_assets now p r e.2 / 10 ^ rc_decimals (cfg_of p r)
  | None => 0
  end.
Lemma bad_debt_fold now p x es : forall c dv bid ch dv' bid' ch',
  c_now c = now -> pwf now x ch -> ch_cfg ch = ps_config p -> ch_res ch = ∅ -> cfg_wf p ->
  Forall (fun e : Z * Z => 0 < e.2) es ->
  foldM (bad_debt_one c p x) (dv, bid, ch) es = Ok (dv', bid', ch') ->
  dv' = dv + sumz (entry_value now p x) es /\
  (forall i v, (i, v) ∈ es -> exists r, 0 <= i /\ ps_list p !! Z.to_nat i = Some r /\ fresh_price now p x r).
Proof.
  induction es as [|[i v] es IH]; intros c dv bid ch dv' bid' ch' Hn P Hcf Hre Wc Hp H.
  - injection H as <- <- <-. rewrite sumz_nil. split; [lia|]. by intros ? ? ?%elem_of_nil.
  - apply Forall_cons in Hp as [He Hp]. cbn [foldM] in H. apply bind_ok in H as ([[dv1 bid1] ch1] & E & H). unfold bad_debt_one in E. cbn [fst snd] in E, He.
    apply bind_ok in E as (b & Ea & E). rewrite (proj2 (Z.ltb_lt 0 _) He) in E. apply list_get_ok in Ea as [Hi Hb].
    apply bind_ok in E as ([r ch0] & El & E). unfold load_reserve in El. cbn [andb] in El. rewrite Hre, lookup_empty in El.
    apply bind_ok in El as (r0 & El & E0). injection E0 as <- <-.
    apply load_res_fields in El as (cfg & d & Hc & Hd & Ha & _ & _ & _ & _ & Hsc & Hac). rewrite Hcf, Hn in Hac.
    assert (r_data r0 = data_at now p b) as Hda. { unfold data_at. by rewrite Hc, Hd, Hac. }
    rewrite Hda in E. rewrite sumz_cons.
    apply bind_ok in E as ([pr ch2] & Ep & E). rewrite Hn in Ep. apply load_price_spec in Ep as ((t & Ho & Ht) & P2 & Q1 & Q2 & Q3); [|done].
    apply bind_ok in E as (ab & Eab & E). apply bind_ok in E as (vv & Evv & E). apply bind_ok in E as (dv2 & Edv & E). injection E as <- <- <-.
    apply i128_ok in Edv as [-> _].
    unfold asset_from_d in Eab. apply fmul_ceil_ok in Eab as [-> _]; [|vals; lia].
    rewrite Hsc in Evv. apply fmul_floor_ok in Evv as [-> _].
    2: { pose proof (cw_valid _ Wc _ _ Hc) as V. apply Z.pow_pos_nonneg; [lia|]. apply V. }
    rewrite Hcf in Ho.
    apply IH in H as [-> Hin]; [|done|done|congruence|congruence|done|done].
    split.
    + unfold entry_value at 2. cbn [fst snd]. rewrite Hb. unfold d_assets, price_of, cfg_of. rewrite Ho, Hc. cbn [fst default]. vals. unfold from_option, id. lia.
    + intros j u [[= -> ->]|Hj]%elem_of_cons; [|by eapply Hin]. exists b. split; [done|]. split; [done|]. by exists pr, t.
Qed.

(** the sum over the entries of a position is a sum over the listed reserves *)
Lemma entries_listed (l : list Addr) (m : gmap Z Z) (f : Addr -> Z -> Z) :
  NoDup l -> (forall i v, m !! i = Some v -> 0 <= i /\ is_Some (l !! Z.to_nat i)) -> (forall r, f r 0 = 0) ->
  sumz (fun e => match l !! Z.to_nat e.1 with Some r => f r e.2 | None => 0 end) (entries m)
  = sumz (fun ia => f ia.2 (getz m ia.1)) (indexed 0 l).
Proof.
  intros Hnd Hm H0.
  assert (forall k (l' : list Addr), sumz (fun ia => f ia.2 (getz m ia.1)) (indexed k l') =
    sumz (fun i => match l !! Z.to_nat i with Some r => f r (getz m i) | None => 0 end) (map fst (indexed k l')) \/ ~ (forall i r, (i, r) ∈ indexed k l' -> l !! Z.to_nat i = Some r)) as Hx.
  { intros k l'. destruct (decide (Forall (fun e : Z * Addr => l !! Z.to_nat e.1 = Some e.2) (indexed k l'))) as [Hf|Hf].
    - left. rewrite sumz_map. apply sumz_ext. intros [i r] Hin. rewrite Forall_forall in Hf. specialize (Hf _ Hin). cbn [fst snd] in *. by rewrite Hf.
    - right. intros H. apply Hf. apply Forall_forall. intros [i r] Hin. by apply H. }
  destruct (Hx 0 l) as [->|Hn].
  2: { exfalso. apply Hn. intros i r Hin. apply indexed_in in Hin as [_ Hin]. by rewrite Z.sub_0_r in Hin. }
  transitivity (sumz (fun i => match l !! Z.to_nat i with Some r => f r (getz m i) | None => 0 end) (map fst (entries m))).
  { rewrite sumz_map. apply sumz_ext. intros [i v] Hin. apply elem_of_entries in Hin. cbn [fst snd]. unfold getz. by rewrite Hin. }
  apply sumz_cover.
  - apply entries_fst_NoDup.
  - clear. generalize 0. induction l as [|b l IH]; intros k; simpl; [constructor|]. constructor; [|apply IH].
    intros Hin. apply elem_of_list_fmap in Hin as ([i r] & -> & Hin). apply indexed_in in Hin as [Hin _]. simpl in Hin. lia.
  - intros i Hi. destruct (l !! Z.to_nat i) as [r|]; [|done]. replace (getz m i) with 0; [done|]. unfold getz.
    destruct (m !! i) as [v|] eqn:E; [|done]. exfalso. apply Hi. apply elem_of_list_fmap. exists (i, v). split; [done|]. by apply elem_of_entries.
  - intros i Hi. destruct (l !! Z.to_nat i) as [r|] eqn:El; [|done]. replace (getz m i) with 0; [done|]. unfold getz.
    destruct (m !! i) as [v|] eqn:E; [|done]. exfalso. apply Hi. destruct (Hm _ _ E) as [Hi0 _].
    assert (forall k (l' : list Addr) (j : nat), l' !! j = Some r -> (k + Z.of_nat j, r) ∈ indexed k l') as Hlook.
    { intros k l'. revert k. induction l' as [|b l' IH]; intros k j Hj; [done|]. destruct j as [|j]; simpl in *.
      - injection Hj as ->. rewrite Z.add_0_r. by left.
      - right. apply (IH (k + 1)) in Hj. by replace (k + Z.of_nat (S j)) with (k + 1 + Z.of_nat j) by lia. }
    apply elem_of_list_fmap. exists (i, r). split; [done|]. specialize (Hlook 0 _ _ El). by rewrite Z2Nat.id in Hlook by done.
Qed.
Lemma sumz_indexed (f : Addr -> Z) (l : list Addr) : forall k, sumz (fun ia => f ia.2) (indexed k l) = sumz f l.
Proof. induction l as [|a l IH]; intros k; [done|]. simpl indexed. rewrite !sumz_cons, IH. done. Qed.

Lemma today w a r : fresh_price (w_now w) (pool w a) (w_ext w) r -> price_of_today w a r.
Proof. intros (v & t & H & Ht). exists v, t. split; [done|]. lia. Qed.

Lemma bad_debt_values w a sg dv bid ch :
  reachable w -> good (pool w a) -> forall u ch0, pwf (w_now w) (w_ext w) ch0 -> ch_cfg ch0 = ps_config (pool w a) -> ch_res ch0 = ∅ ->
  foldM (bad_debt_one (ctx w sg) (pool w a) (w_ext w)) (0, ∅, ch0) (entries (po_liab (get_pos (pool w a) u))) = Ok (dv, bid, ch) ->
  dv = sumz (debt_value w a u) (reserve_list w a) /\ (forall r, owed (account w a u) r <> 0 -> price_of_today w a r).
Proof.
  intros Hr G u ch0 P Q1 Q2 Ef. apply (bad_debt_fold (w_now w)) in Ef as [-> Hfr]; [|done|done|done|done|apply G|].
  2: { apply Forall_forall. intros [i v] Hin. apply elem_of_entries in Hin. exact (gd_pos _ G _ KLiab _ _ Hin). }
  split.
  - rewrite Z.add_0_l. unfold entry_value.
    rewrite (entries_listed (ps_list (pool w a)) (po_liab (get_pos (pool w a) u))
      (fun r n => price_of (pool w a) (w_ext w) r * d_assets (w_now w) (pool w a) r n / 10 ^ rc_decimals (cfg_of (pool w a) r))).
    + transitivity (sumz (fun ia => debt_value w a u ia.2) (indexed 0 (reserve_list w a))); [|apply sumz_indexed].
      apply sumz_ext. intros [i r] Hin. cbn [fst snd]. apply indexed_in in Hin as [Hi Hl]. rewrite Z.sub_0_r in Hl.
      unfold debt_value, d_assets, d_rate_now. pose proof (account_index w a KLiab u _ _ G Hl) as A. cbn [acc_k get_k] in A. rewrite A, Z2Nat.id by done. done.
    + apply (cw_nodup _ (gd_cfg _ G)).
    + intros i v Hv. pose proof (Hfr i v ltac:(by apply elem_of_entries)) as (r & H1 & H2 & _). split; [done|]. by rewrite H2.
    + intros r. unfold d_assets. rewrite Z.mul_0_l. unfold cdiv. simpl. rewrite Z.mul_0_r. apply Zdiv_0_l.
  - intros r Ho. destruct (account_listed w a KLiab u r G Ho) as [i Hi]. pose proof (account_index w a KLiab u i r G Hi) as A.
    cbn [acc_k get_k] in A. rewrite A in Ho. unfold getz in Ho. destruct (po_liab (positions w a u) !! Z.of_nat i) as [v|] eqn:E; [|done].
    destruct (Hfr (Z.of_nat i) v) as (r' & _ & Hr' & Hf); [by apply elem_of_entries|]. rewrite Nat2Z.id in Hr'. unfold reserve_list in Hi. rewrite Hi in Hr'. injection Hr' as <-.
    by apply today.
Qed.

(** ** C24: the lot of a bad debt auction *)

(** the lot is worth 140% of the backstop's debt, or all the pool's backstop tokens if that is less *)
Theorem C24_lot : forall w sg a out w',
  reachable w -> exec w (OPool sg a PNewBadDebt) = Ok (out, w') ->
  exists au dec, auction w' a 1 (ps_backstop (pool w a)) = Some au /\
    o_dec (x_orc (w_ext w)) !! pc_oracle (ps_config (pool w a)) = Some dec /\ 0 < backstop_tokens w a /\
    let total := sumz (debt_value w a (ps_backstop (pool w a))) (reserve_list w a) in
    total <> 0 /\
    (0 < token_value w a dec ->
       amount_at (au_lot au) (backstop_token w) = Z.min (backstop_tokens w a) ((total * 14000000 / 10000000) * 10000000 / token_value w a dec)).
Proof.
  intros w sg a out w' Hr H. destruct (tx_good _ _ _ _ _ _ Hr H) as [Hi G]; [done|].
  apply exec_opool in H as (_ & _ & _ & px & H & Hp' & Hx' & _). simpl in H. rewrite Hi in H. simpl in H.
  apply bind_ok in H as ([au p1] & E & H). injection H as <- <-. simpl in Hp', Hx'.
  pose proof (create_bad_debt_auct _ _ _ _ _ _ E) as ->.
  unfold create_bad_debt in E. apply assert_ok in E as [_ E]. apply bind_ok in E as (blk & _ & E).
  apply bind_ok in E as ([dec ch] & Ed & E). apply bind_ok in E as (osc & Eo & E). apply bind_ok in E as ([[dv bid] ch1] & Ef & E).
  apply assert_ok in E as [Hz E]. apply bind_ok in E as (btok & Et & E). apply bind_ok in E as (pd & Ep & E).
  apply bind_ok in E as (tv & Etv & E). apply bind_ok in E as (l0 & El0 & E). apply bind_ok in E as (l1 & El1 & E).
  injection E as E _. unfold call_backstop_token, to_backstop in Et. destruct (ps_backstop (pool w a) =? bs_addr) eqn:Ebs; [|discriminate].
  destruct (bs_init (x_bs (w_ext w))); [|discriminate]. injection Et as <-.
  unfold call_pool_data, to_backstop in Ep. rewrite Ebs in Ep. apply pool_data_fields in Ep as (Etok & vb & vu & Hlp & _ & Eus).
  apply i128_ok in Eo as [-> _].
  assert (o_dec (x_orc (w_ext w)) !! pc_oracle (ps_config (pool w a)) = Some dec /\ pwf (w_now w) (w_ext w) ch /\
    ch_cfg ch = ps_config (pool w a) /\ ch_res ch = ∅) as (Hdec & P & Q1 & Q2).
  { unfold load_dec in Ed. simpl in Ed. apply bind_ok in Ed as (d0 & Eo & Ed). injection Ed as <- <-.
    destruct (o_dec _ !! _) as [d1|] eqn:Eq; [|discriminate]. injection Eo as ->. split; [done|].
    split; [|done]. constructor; simpl; [intros ? ?; by rewrite lookup_empty|]. by intros ? [= <-]. }
  apply bad_debt_values in Ef as [-> Hfr]; [|done|done|done|done|done].
  apply negb_true_iff, orb_false_iff in Hz as [_ Hz].
  assert (0 < backstop_tokens w a) as Hpos.
  { unfold backstop_token_value in Etv. mon Etv.
    unfold fdiv_floor, div_floor in Etv. mon Etv. destruct (Z.eqb_spec (pd_tokens pd) 0) as [|Hz0]; [discriminate|]. rewrite Etok in Hz0.
    destruct (binv_pool _ _ a (reachable_binv _ Hr)) as [_ B]. unfold backstop_tokens. lia. }
  exists au, dec. split; [unfold auction; rewrite Hp'; simpl; by rewrite lookup_insert|].
  split; [done|]. split; [done|]. cbv zeta. split; [lia|]. intros Htv.
  unfold backstop_token_value in Etv. mon Etv.
  match goal with E : fmul_floor (pd_usdc pd) _ _ = Ok _ |- _ => apply fmul_floor_ok in E as [-> _]; [|vals; lia] end.
  match goal with E : i128 _ = Ok _ |- _ => apply i128_ok in E as [-> _] end.
  apply fdiv_floor_ok in Etv as [Etv _]; [|unfold backstop_tokens in Hpos; lia]. rewrite Eus, Etok in Etv.
  unfold token_value in *. rewrite Hlp in *. unfold backstop_tokens in *. vals. rewrite <- Etv in *.
  apply fmul_floor_ok in El0 as [-> _]; [|lia]. apply fdiv_floor_ok in El1 as [-> _]; [|done].
  rewrite <- E. cbn [au_lot]. unfold amount_at, backstop_token. rewrite lookup_singleton. cbn [default]. unfold from_option, id. by rewrite Etok.
Qed.

(** ** C57: no decision is taken on a price older than a day *)

(** a submit with a risk-increasing request that leaves the user with debt *)
Theorem C57_submit : forall w sg a from spender to qs out w',
  reachable w -> exec w (OPool sg a (PSubmit from spender to qs)) = Ok (out, w') ->
  (exists q, q ∈ qs /\ risk_increasing q) -> po_liab (positions w' a from) <> ∅ ->
  forall r, collateral (account w' a from) r <> 0 \/ owed (account w' a from) r <> 0 -> price_of_today w' a r.
Proof.
  intros w sg a from spender to qs out w' Hr H Hq Hl r Hu.
  pose proof (exec_opool _ _ _ _ _ _ H) as (_ & Hn & _ & _).
  apply submit_tx in H as (G & G' & Hcfg & _ & _ & _ & _ & _ & _ & ls & x1 & ac & chk & t1 & t2 & pos & -> & -> & Hqs & _ & _ & Hx & _ & Hh); [|done].
  apply areqs_chk in Hqs as [_ Hc]. cbn [as_chk] in Hc. specialize (Hc Hq). subst chk.
  destruct (Hh eq_refl Hl) as (_ & Hf & _).
  assert (exists i, ps_list (pool w' a) !! i = Some r /\ (get_coll (get_pos (pool w' a) from) (Z.of_nat i) <> 0 \/ get_liab (get_pos (pool w' a) from) (Z.of_nat i) <> 0)) as (i & Hi & Hne).
  { destruct Hu as [Hu|Hu].
    - destruct (account_listed w' a KColl from r G' Hu) as [i Hi]. exists i. split; [done|]. left.
      pose proof (account_index w' a KColl from i r G' Hi) as A. cbn [acc_k get_k] in A. by rewrite A in Hu.
    - destruct (account_listed w' a KLiab from r G' Hu) as [i Hi]. exists i. split; [done|]. right.
      pose proof (account_index w' a KLiab from i r G' Hi) as A. cbn [acc_k get_k] in A. by rewrite A in Hu. }
  apply today. rewrite Hn. destruct (Hf _ _ Hi Hne) as (v & t & Hv & Ht). exists v, t. by rewrite Hx.
Qed.

(** opening a liquidation *)
Theorem C57_liquidation : forall w sg a u pct out w',
  reachable w -> exec w (OPool sg a (PNewLiq u pct)) = Ok (out, w') ->
  forall r, collateral (account w a u) r <> 0 \/ owed (account w a u) r <> 0 -> price_of_today w a r.
Proof.
  intros w sg a u pct out w' Hr H r Hu. destruct (tx_good _ _ _ _ _ _ Hr H) as [Hi G]; [done|].
  apply exec_opool in H as (Hty & _ & _ & px & H & Hp' & _ & _). simpl in H. rewrite Hi in H. simpl in H. simpl in Hty. apply in_u64_iff in Hty.
  apply bind_ok in H as ([au p1] & E & H). injection H as <- <-.
  apply create_liq_sim in E; [|exact G|lia]. cbv zeta in E. destruct E as (_ & _ & _ & _ & _ & _ & Hf & _).
  apply today. destruct Hu as [Hu|Hu].
  - destruct (account_listed w a KColl u r G Hu) as [i Hl]. apply (Hf i); [done|]. left.
    pose proof (account_index w a KColl u i r G Hl) as A. cbn [acc_k get_k] in A. by rewrite A in Hu.
  - destruct (account_listed w a KLiab u r G Hu) as [i Hl]. apply (Hf i); [done|]. right.
    pose proof (account_index w a KLiab u i r G Hl) as A. cbn [acc_k get_k] in A. by rewrite A in Hu.
Qed.

(** opening a bad debt auction *)
Theorem C57_bad_debt : forall w sg a out w',
  reachable w -> exec w (OPool sg a PNewBadDebt) = Ok (out, w') ->
  forall r, owed (account w a (ps_backstop (pool w a))) r <> 0 -> price_of_today w a r.
Proof.
  intros w sg a out w' Hr H. destruct (tx_good _ _ _ _ _ _ Hr H) as [Hi G]; [done|].
  apply exec_opool in H as (_ & _ & _ & px & H & Hp' & Hx' & _). simpl in H. rewrite Hi in H. simpl in H.
  apply bind_ok in H as ([au p1] & E & H). clear H.
  unfold create_bad_debt in E. apply assert_ok in E as [_ E]. apply bind_ok in E as (blk & _ & E).
  apply bind_ok in E as ([dec ch] & Ed & E). apply bind_ok in E as (osc & Eo & E). apply bind_ok in E as ([[dv bid] ch1] & Ef & E).
  assert (pwf (w_now w) (w_ext w) ch /\ ch_cfg ch = ps_config (pool w a) /\ ch_res ch = ∅) as (P & Q1 & Q2).
  { unfold load_dec in Ed. simpl in Ed. apply bind_ok in Ed as (d0 & Eo' & Ed). injection Ed as <- <-.
    destruct (o_dec _ !! _) as [d1|] eqn:Eq; [|discriminate]. injection Eo' as ->.
    split; [|done]. constructor; simpl; [intros ? ?; by rewrite lookup_empty|]. by intros ? [= <-]. }
  by apply bad_debt_values in Ef as [_ Hfr].
Qed.

(** opening an interest auction *)
Theorem C57_interest : forall w sg a assets out w',
  reachable w -> exec w (OPool sg a (PNewInterest assets)) = Ok (out, w') ->
  forall r, r ∈ assets -> 0 < credit_now w a r -> price_of_today w a r.
Proof.
  intros w sg a assets out w' Hr H r Hin Hc.
  destruct (C25_creation _ _ _ _ _ _ Hr H) as (au & bid & dec & _ & _ & _ & _ & _ & _ & _ & Hf & _).
  destruct (Hf r Hin) as [_ Hp]. apply today. by apply Hp.
Qed.
