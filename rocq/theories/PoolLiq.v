(** * Opening liquidation auctions; claims *)
From Verif Require Import Base Types Token Emitter Factory Backstop PoolReserve PoolUser PoolHealth
  PoolAuction PoolSubmit PoolEmis PoolAdmin World Facts PoolFrame PoolCfg PoolAccrue PoolTrace PoolInv AuctionFacts PoolSim PoolReq PoolHF PoolOps.

Lemma quote_spec l pct sc : NoDup l -> 0 < sc -> forall es m m', NoDup es.*1 ->
  foldM (quote l pct sc) m es = Ok m' ->
  (forall i v, (i, v) ∈ es -> 0 <= i /\ is_Some (l !! Z.to_nat i)) /\
  (forall i v a, (i, v) ∈ es -> l !! Z.to_nat i = Some a -> m' !! a = Some (cdiv (v * pct) sc)) /\
  (forall a, (forall i v, (i, v) ∈ es -> l !! Z.to_nat i <> Some a) -> m' !! a = m !! a).
Proof.
  intros Hl Hsc. induction es as [|[i v] es IH]; simpl; intros m m' Hnd H.
  - injection H as <-. split; [intros ? ? Hin; by apply elem_of_nil in Hin|]. split; [intros ? ? ? Hin; by apply elem_of_nil in Hin|done].
  - apply bind_ok in H as (m1 & E & H). unfold quote in E. simpl in E.
    apply bind_ok in E as (a & Ea & E). apply bind_ok in E as (q & Eq & E). injection E as <-.
    apply list_get_ok in Ea as [Hi Ha]. apply fmul_ceil_ok in Eq as [-> _]; [|done].
    apply NoDup_cons in Hnd as [Hni Hnd]. simpl in Hni. pose proof (IH _ _ Hnd H) as (H1 & H2 & H3).
    assert (forall j w b, (j, w) ∈ es -> l !! Z.to_nat j = Some b -> b <> a) as Hd.
    { intros j w b Hin Hb ->. assert (Z.to_nat j = Z.to_nat i) as Hji by (exact (NoDup_lookup l _ _ _ Hl Hb Ha)).
      destruct (H1 _ _ Hin) as [Hj _]. assert (j = i) as -> by lia. apply Hni.
      apply elem_of_list_fmap. exists (i, w). done. }
    split; [|split].
    + intros j w Hin. apply elem_of_cons in Hin as [[= -> ->]|Hin]; [split; [done|by eexists]|by eapply H1].
    + intros j w b Hin Hb. apply elem_of_cons in Hin as [[= -> ->]|Hin]; [|by eapply H2].
      assert (b = a) by congruence. subst b. rewrite H3; [by rewrite lookup_insert|].
      intros j' w' Hin' Hj'. by eapply Hd.
    + intros b Hb. rewrite H3.
      * rewrite lookup_insert_ne; [done|]. intros ->. eapply (Hb i v); [left|done].
      * intros j w Hin. eapply Hb. by right.
Qed.

(** the amounts put up by an auction, per asset *)
Lemma quote_asset l pct sc m q : NoDup l -> 0 < sc -> foldM (quote l pct sc) ∅ (entries m) = Ok q ->
  (forall (i : nat) a, l !! i = Some a -> q !! a = (fun v => cdiv (v * pct) sc) <$> m !! Z.of_nat i) /\
  (forall a, a ∉ l -> q !! a = None).
Proof.
  intros Hl Hsc H. apply quote_spec in H as (H1 & H2 & H3); [|done|done|apply entries_fst_NoDup]. split.
  - intros i a Ha. destruct (m !! Z.of_nat i) as [v|] eqn:E; simpl.
    + eapply (H2 (Z.of_nat i)); [by apply elem_of_entries|]. by rewrite Nat2Z.id.
    + rewrite H3; [by rewrite lookup_empty|]. intros j w Hin Hj. destruct (H1 _ _ Hin) as [Hj0 _].
      apply elem_of_entries in Hin. assert (Z.to_nat j = i) as Hji by (exact (NoDup_lookup l _ _ _ Hl Hj Ha)). subst i.
      rewrite Z2Nat.id in E by done. congruence.
  - intros a Ha. rewrite H3; [by rewrite lookup_empty|]. intros i v _ Hi. apply Ha. by eapply elem_of_list_lookup_2.
Qed.

Lemma hf_over_spec d max b : is_hf_over d max = Ok b ->
  b = true \/ (hd_liab_base d <> 0 /\ exists h, fdiv_floor (hd_coll_base d) (hd_liab_base d) (hd_scalar d) = Ok h /\ h <= cdiv (hd_scalar d * max) 10000000).
Proof.
  unfold is_hf_over. destruct (hd_liab_base d =? 0) eqn:E; [intros [= <-]; by left|].
  intros H. apply bind_ok in H as (m & E1 & H). apply bind_ok in H as (h & E2 & H). injection H as <-.
  destruct (m <? h) eqn:Eh; [by left|]. right. split; [lia|]. exists h. split; [done|].
  apply fmul_ceil_ok in E1 as [-> _]; [|vals; lia]. vals. lia.
Qed.

(** the health factor of [pos], rounded down to the oracle's precision, is at most [max] *)
Definition hf_at_most (now : Z) (p : PoolSt) (x : Ext) (pos : Positions) (max : Z) : Prop :=
  exists dec, o_dec (x_orc x) !! pc_oracle (ps_config p) = Some dec /\ eff_liab now p x pos <> 0 /\
    exists h, fdiv_floor (eff_coll now p x pos) (eff_liab now p x pos) (10 ^ dec) = Ok h /\
      h <= cdiv (10 ^ dec * max) 10000000.

Lemma liq_estimate_spec d pct ps w wp : 0 <= pct -> 0 <= hd_scalar d -> liq_estimate d pct = Ok (ps, w, wp) ->
  ps = pct * hd_scalar d / 100 /\ wp <= hd_scalar d.
Proof.
  intros Hp Hs H. unfold liq_estimate in H.
  apply bind_ok in H as (ps0 & E & H). apply i128_ok in E as [-> _].
  do 10 (apply bind_ok in H as (? & ? & H)). injection H as <- <- <-.
  split.
  - rewrite Z.quot_div_nonneg by nia. done.
  - match goal with |- (if ?b then _ else _) <= _ => destruct b eqn:E0 end; lia.
Qed.

Lemma fdiv_floor_zero x d : exists e, fdiv_floor x 0 d = Err e.
Proof.
  unfold fdiv_floor. destruct (i128 (x * d)); simpl; [|eauto]. unfold div_floor, div128. simpl.
  repeat match goal with |- context [if ?b then _ else _] => destruct b end; simpl; eauto.
Qed.
Lemma liq_estimate_nonneg d pct ps w wp : 0 <= pct -> 0 < hd_scalar d ->
  0 <= hd_coll_base d <= hd_coll_raw d -> 0 <= hd_liab_raw d <= hd_liab_base d ->
  liq_estimate d pct = Ok (ps, w, wp) -> 0 <= wp.
Proof.
  intros Hp Hs Hc Hl H. unfold liq_estimate in H. set (sc := hd_scalar d) in *.
  apply bind_ok in H as (ps0 & E0 & H). apply i128_ok in E0 as [-> _].
  apply bind_ok in H as (cf & Ecf & H).
  destruct (Z.eq_dec (hd_coll_raw d) 0) as [Hz|Hcr]; [rewrite Hz in Ecf; destruct (fdiv_floor_zero (hd_coll_base d) sc) as [e He]; by rewrite He in Ecf|].
  apply fdiv_floor_ok in Ecf as [-> _]; [|lia].
  apply bind_ok in H as (lf & Elf & H).
  destruct (Z.eq_dec (hd_liab_raw d) 0) as [Hz|Hlr]; [rewrite Hz in Elf; destruct (fdiv_floor_zero (hd_liab_base d) sc) as [e He]; by rewrite He in Elf|].
  apply fdiv_floor_ok in Elf as [-> _]; [|lia].
  set (cf := hd_coll_base d * sc / hd_coll_raw d) in *. set (lf := hd_liab_base d * sc / hd_liab_raw d) in *.
  assert (0 <= cf <= sc) as Hcf.
  { unfold cf. split; [apply Z.div_pos; nia|]. apply Z.div_le_upper_bound; nia. }
  assert (sc <= lf) as Hlf.
  { unfold lf. apply Z.div_le_lower_bound; nia. }
  apply bind_ok in H as (q & Eq & H). apply fdiv_ceil_ok in Eq as [-> _]; [|lia].
  assert (cdiv (cf * sc) lf <= sc) as Hq by (apply cdiv_le_iff; nia).
  apply bind_ok in H as (df & Edf & H). apply i128_ok in Edf as [-> _].
  apply bind_ok in H as (two & Etwo & H). apply i128_ok in Etwo as [-> _].
  apply bind_ok in H as (inc0 & Einc & H). apply fdiv_ceil_ok in Einc as [-> _]; [|lia].
  pose proof (cdiv_nonneg ((sc - cdiv (cf * sc) lf) * sc) (2 * sc) ltac:(lia) ltac:(nia)) as Hinc.
  apply bind_ok in H as (inc & Ei & H). apply i128_ok in Ei as [-> _].
  apply bind_ok in H as (w0 & Ew0 & H). apply fmul_floor_ok in Ew0 as [-> _]; [|done].
  apply bind_ok in H as (w1 & Ew1 & H). apply fmul_floor_ok in Ew1 as [-> _]; [|done].
  apply bind_ok in H as (wp0 & Ewp & H). apply fdiv_ceil_ok in Ewp as [-> _]; [|lia].
  injection H as <- <- <-.
  assert (0 <= (pct * sc) ÷ 100) by (apply Z.quot_pos; nia).
  assert (0 <= hd_liab_raw d * ((pct * sc) ÷ 100) / sc) by (apply Z.div_pos; nia).
  assert (0 <= hd_liab_raw d * ((pct * sc) ÷ 100) / sc * (cdiv ((sc - cdiv (cf * sc) lf) * sc) (2 * sc) + sc) / sc) by (apply Z.div_pos; nia).
  match goal with |- 0 <= if ?b then _ else _ => destruct b end; [lia|]. apply cdiv_nonneg; nia.
Qed.

(** positions left when [lot] collateral and [bid] liabilities are taken from [u] *)
Definition left_after (p : PoolSt) (u : Addr) (lot bid : gmap Addr Z) (pos : Positions) : Prop :=
  forall (i : nat) a, ps_list p !! i = Some a ->
    get_coll pos (Z.of_nat i) = get_coll (get_pos p u) (Z.of_nat i) - getz lot a /\
    get_liab pos (Z.of_nat i) = get_liab (get_pos p u) (Z.of_nat i) - getz bid a /\
    get_sup pos (Z.of_nat i) = get_sup (get_pos p u) (Z.of_nat i).

Lemma shares_at p k u (i : nat) a : cfg_wf p -> ps_list p !! i = Some a -> shares p k u a = getz (get_k k (get_pos p u)) (Z.of_nat i).
Proof. intros W H. unfold shares. destruct (cw_idx p W _ _ H) as (cfg & -> & ->). done. Qed.

Lemma create_liq_sim c self p x user pct au p' :
  good p -> 0 <= pct -> create_liquidation c self p x user pct = Ok (au, p') ->
  let pos := get_pos p user in
  user <> self /\ user <> ps_backstop p /\ ps_auct p !! (0, user) = None /\ 1 <= pct <= 100 /\
  au_block au = c_seq c + 1 /\
  eff_coll (c_now c) p x pos <= eff_liab (c_now c) p x pos /\
  (forall i a, ps_list p !! i = Some a -> get_coll pos (Z.of_nat i) <> 0 \/ get_liab pos (Z.of_nat i) <> 0 -> fresh_price (c_now c) p x a) /\
  (exists dec wp, o_dec (x_orc x) !! pc_oracle (ps_config p) = Some dec /\ 0 <= dec /\ wp <= 10 ^ dec /\
     (0 <= eff_coll (c_now c) p x pos <= raw_coll (c_now c) p x pos -> 0 <= raw_liab (c_now c) p x pos <= eff_liab (c_now c) p x pos -> 0 <= wp) /\
     (forall i a, ps_list p !! i = Some a -> get_liab pos (Z.of_nat i) <> 0 -> 0 < rc_l_factor (cfg_of p a)) /\
     (forall (i : nat) a, ps_list p !! i = Some a ->
        au_lot au !! a = (fun v => cdiv (v * wp) (10 ^ dec)) <$> po_coll pos !! Z.of_nat i /\
        au_bid au !! a = (fun v => cdiv (v * (pct * 10 ^ dec / 100)) (10 ^ dec)) <$> po_liab pos !! Z.of_nat i) /\
     (forall a, a ∉ ps_list p -> au_lot au !! a = None /\ au_bid au !! a = None)) /\
  (pct < 100 -> exists pos', left_after p user (au_lot au) (au_bid au) pos' /\
     hf_at_most (c_now c) p x pos' 11500000 /\ hf_at_least (c_now c) p x pos' 10300000) /\
  exists ls p1, only_emis user ls /\ ptrace (c_now c) p ls p1 /\ p' = set_auction p1 0 user au.
Proof.
  intros G Hpct H pos. unfold create_liquidation in H. apply assert_ok in H as [Hself H].
  apply negb_true_iff, orb_false_iff in Hself as [Hs1 Hs2].
  apply bind_ok in H as ([au0 p1] & E & H). injection H as <- <-.
  unfold create_user_liq in E. apply assert_ok in E as [Hau E]. apply assert_ok in E as [Hpc E].
  apply negb_true_iff, orb_false_iff in Hpc as [Hp1 Hp2].
  apply negb_true_iff in Hau. unfold has_auction in Hau. apply bool_decide_eq_false in Hau.
  apply bind_ok in E as (blk & Eb & E). apply u32_ok in Eb as [-> _].
  apply bind_ok in E as ([d ch1] & Epd & E). apply assert_ok in E as [Hd E].
  apply bind_ok in E as ([[ps w] wp] & Ele & E). apply bind_ok in E as (lot & El & E). apply bind_ok in E as (bid & Ebd & E).
  fold pos in Epd, El, Ebd.
  assert (forall k i, 0 <= getz (get_k k pos) i) as Hpos by (intros; apply (pos_ok_getz p user), G).
  assert (flush p (pool_load p) {[user := pos]} = touch p user) as Hft by (apply touch_flush).
  assert (ptrace (c_now c) p [LTouch user] (touch p user)) as Tt by (apply ptrace_one, pm_touch).
  pose proof Epd as Epd0.
  eapply (position_data_spec _ _ _ _ _ {[user := pos]}) in Epd as (W1 & HL1 & P1 & D1 & D2 & D3 & D4 & (dec & Hdec & Hsc) & Hfr & Hlfac);
    [|apply pool_load_cwf|exact Hft|apply G|apply pool_load_pwf|exact Hpos].
  destruct (trace_values _ _ _ _ x pos Tt) as (V1 & V2 & V3 & V4). rewrite V1 in D1. rewrite V3 in D3. rewrite V2 in D2. rewrite V4 in D4.
  destruct (Z.ltb_spec dec 0) as [Hneg|Hdec0].
  { exfalso. assert (hd_scalar d = 0) as Hz by (rewrite Hsc; by apply Z.pow_neg_r).
    (* a zero scalar cannot be divided by *)
    unfold liq_estimate in Ele. apply bind_ok in Ele as (? & _ & Ele). apply bind_ok in Ele as (? & _ & Ele). apply bind_ok in Ele as (? & _ & Ele).
    apply bind_ok in Ele as (? & _ & Ele). apply bind_ok in Ele as (? & _ & Ele). apply bind_ok in Ele as (? & E2 & Ele).
    apply i128_ok in E2 as [-> _]. apply bind_ok in Ele as (? & E3 & _). unfold fdiv_ceil in E3. rewrite Hz in E3.
    replace (2 * 0) with 0 in E3 by lia. unfold fmul_ceil, div128 in E3. simpl in E3.
    repeat match type of E3 with context [i128 ?e] => destruct (i128 e); simpl in E3; try discriminate end. }
  apply negb_true_iff, Z.ltb_ge in Hd.
  assert (0 < 10 ^ dec) as Hsc0 by (by apply Z.pow_pos_nonneg).
  assert (0 <= eff_coll (c_now c) p x pos <= raw_coll (c_now c) p x pos -> 0 <= raw_liab (c_now c) p x pos <= eff_liab (c_now c) p x pos -> 0 <= wp) as Hwp0.
  { intros Hy1 Hy2. eapply (liq_estimate_nonneg d); [exact Hpct|lia| | |exact Ele]; lia. }
  apply liq_estimate_spec in Ele as [-> Hwp]; [|done|lia].
  rewrite Hsc in *.
  apply quote_asset in El as [L1 L2]; [|apply G|done]. apply quote_asset in Ebd as [B1 B2]; [|apply G|done].
  split; [lia|]. split; [lia|]. split; [by destruct (ps_auct p !! (0, user)); [exfalso; apply Hau; eauto|]|]. split; [lia|].
  assert (exists ls, only_emis user ls /\ ptrace (c_now c) p ls p1 /\
    au0 = mkAuction bid lot (c_seq c + 1) /\ (pct < 100 -> exists pos', left_after p user lot bid pos' /\
     hf_at_most (c_now c) p x pos' 11500000 /\ hf_at_least (c_now c) p x pos' 10300000)) as (ls & Ho & T & -> & Hh).
  { destruct (pct =? 100) eqn:E100.
    - apply assert_ok in E as [_ E]. injection E as <- <-. exists []. split; [intros ? Hin; by apply elem_of_nil in Hin|].
      split; [constructor|]. split; [done|]. lia.
    - apply bind_ok in E as ([[p2 ch2] pos2] & Erm & E). apply bind_ok in E as ([nd ch3] & Epd2 & E).
      apply bind_ok in E as (ov & Eov & E). apply assert_ok in E as [Hov E].
      apply bind_ok in E as (un & Eun & E). apply assert_ok in E as [Hun E]. injection E as <- <-.
      pose proof (rm_positions_pr _ _ _ _ _ _ Erm) as Hpr. simpl in Hpr.
      pose proof (rm_positions_emis _ _ _ _ _ _ Erm) as Hem. simpl in Hem.
      assert (good (flush p ch1 {[user := pos]})) as G1 by (rewrite HL1; by apply touch_good).
      eapply rm_sim in Erm as (W2 & G2 & T2); [|exact W1|exact G1|by rewrite lookup_singleton].
      rewrite insert_singleton in *. rewrite HL1 in T2.
      set (L' := flush p2 ch2 {[user := pos2]}) in *.
      assert (get_pos L' user = pos2) as Hgp by (unfold L'; by rewrite flush_get_pos, lookup_singleton).
      assert (ptrace (c_now c) p ([LTouch user] ++ rm_lbls user lot bid) L') as T3 by (eapply ptrace_app; eauto).
      eapply (position_data_spec _ _ _ _ _ {[user := pos2]} L') in Epd2 as (_ & _ & _ & D1' & _ & D3' & _ & (dec' & Hdec' & Hsc') & _ & _);
        [|exact W2|done|exact (flush_wf _ _ _ G2)|eapply pwf_same; [exact Hpr|exact P1]|
         intros k i; rewrite <- Hgp; apply pos_ok_getz, G2].
      destruct (trace_values _ _ _ _ x pos2 T3) as (V1' & _ & V3' & _). rewrite V1' in D1'. rewrite V3' in D3'.
      assert (ps_config p2 = ps_config p) as Hcp by (rewrite Hem; done).
      rewrite Hcp in Hdec'. assert (dec' = dec) by congruence. subst dec'.
      apply hf_over_spec in Eov as [->|(Hnz & h & Hh1 & Hh2)]; [discriminate|].
      apply under_spec in Eun as [->|Hu]; [discriminate|].
      (* the emission moves *)
      unfold rm_lbls in T2. apply ptrace_app_inv in T2 as (Lm & Ta & Tb).
      assert (good (touch p user)) as Gt by (by apply touch_good).
      assert (withrp (ps_rdata p) (ps_pos p) (touch p user) = p) as Hw0 by (by destruct p).
      assert (forall b, get_pos (touch p user) b = get_pos p b) as Htp.
      { intros b. unfold touch. rewrite get_pos_set_ps. by destruct (decide (b = user)) as [->|]. }
      destruct (lbls_frame _ _ _ _ _ _ _ Ta) as (F1 & F2 & F3).
      destruct (dry_run _ user (-1) KColl (ps_rdata p) (ps_pos p) _ _ _ (entries_fst_NoDup lot)
        (fun a b ca cb => good_index _ a b ca cb (gd_cfg _ Gt)) Ta) as (ls1 & O1 & Td1).
      { intros a cfg _ Hc. destruct (proj1 (gd_dom _ Gt a) (ex_intro _ _ Hc)) as [d0 Hd0]. exists d0, d0.
        split; [done|]. split; [done|]. split; [done|]. rewrite Htp. done. }
      destruct (dry_run _ user (-1) KLiab (ps_rdata p) (ps_pos p) _ _ _ (entries_fst_NoDup bid)
        (fun a b ca cb => good_index _ a b ca cb (gd_cfg _ (ptrace_good _ _ _ _ Gt Ta))) Tb) as (ls2 & O2 & Td2).
      { intros a cfg _ Hc. destruct F3 as (_ & _ & _ & _ & _ & _ & Hrc & _). rewrite Hrc in Hc.
        destruct (proj1 (gd_dom _ Gt a) (ex_intro _ _ Hc)) as [d0 Hd0].
        destruct (F1 _ _ Hd0) as (d1 & Hd1 & Hs). exists d1, d0. split; [done|]. split; [done|].
        split; [symmetry; by apply Hs|]. rewrite (F2 KLiab user) by done. rewrite Htp. done. }
      rewrite Hw0 in Td1.
      exists (ls1 ++ ls2). split; [intros l Hin; apply elem_of_app in Hin as [?|?]; [by apply O1|by apply O2]|].
      split; [|split; [done|]].
      { assert (withrp (ps_rdata p) (ps_pos p) L' = p2) as Hw2.
        { unfold L', flush. rewrite withrp_withrp. rewrite Hem. by destruct p. }
        rewrite <- Hw2. eapply ptrace_app; [exact Td1|exact Td2]. }
      intros _. exists pos2. split; [|split].
      + intros i a Hi.
        pose proof (cfg_wf) as _. pose proof (gd_cfg _ G) as Wp. pose proof (gd_cfg _ G2) as Wl.
        assert (ps_list L' !! i = Some a) as Hi' by (unfold L'; simpl; rewrite Hem; done).
        assert (forall k, getz (get_k k pos2) (Z.of_nat i) = getz (get_k k pos) (Z.of_nat i) + sumz (contrib k user a) ([LTouch user] ++ rm_lbls user lot bid)) as Hk.
        { intros k. pose proof (trace_shares _ _ _ _ k user a G T3) as Hts.
          rewrite (shares_at _ _ _ _ _ Wp Hi), (shares_at _ _ _ _ _ Wl Hi'), Hgp in Hts. exact Hts. }
        unfold rm_lbls in Hk. 
        assert (forall k, sumz (contrib k user a) ([LTouch user] ++ lbls KColl user (-1) (entries lot) ++ lbls KLiab user (-1) (entries bid))
          = (if decide (KColl = k) then - getz lot a else 0) + (if decide (KLiab = k) then - getz bid a else 0)) as Hc.
        { intros k. rewrite !sumz_app, !contrib_lbls. cbn [sumz foldr contrib]. destruct (decide (KColl = k)), (decide (KLiab = k));
          repeat (first [rewrite decide_True by done | rewrite decide_False by tauto]); simpl; lia. }
        pose proof (Hk KColl) as K1. pose proof (Hk KLiab) as K2. pose proof (Hk KSup) as K3.
        rewrite Hc in K1, K2, K3. simpl in K1, K2, K3. unfold get_coll, get_liab, get_sup. fold pos.
        repeat split; lia.
      + exists dec. split; [done|]. rewrite <- D1', <- D3'. split; [done|]. exists h. rewrite <- Hsc'. done.
      + exists dec. split; [done|]. rewrite <- D1', <- D3', <- Hsc'. exact Hu. }
  split; [done|]. split; [lia|]. split; [exact Hfr|].
  split. { exists dec, wp. split; [done|]. split; [done|]. split; [done|]. split; [done|]. split; [exact Hlfac|]. simpl. split; [intros i a Hi; split; [by apply L1|by apply B1]|]. intros a Ha. split; [by apply L2|by apply B2]. }
  split; [exact Hh|]. exists ls, p1. done.
Qed.

(** ** Claims *)
Definition claim_lbls (from : Addr) (l : list (Z * Z)) : list label := map (fun e => LEmis from e.1 true e.2) l.

Lemma claim_fold_sim now from l : forall ids p tot tot' p' pos,
  good p -> (forall i, i ∈ ids -> 0 <= i) -> pos = get_pos p from -> l = ps_list p ->
  foldM (p_claim_one now from pos l) (tot, p) ids = Ok (tot', p') ->
  exists es, es.*1 = ids /\ tot' = tot + sumz snd es /\ ptrace now p (claim_lbls from es) p'.
Proof.
  induction ids as [|id ids IH]; simpl; intros p tot tot' p' pos G Hn Hpos Hl H.
  - injection H as <- <-. exists []. simpl. split; [done|]. split; [lia|]. constructor.
  - apply bind_ok in H as ([t1 p1] & E & H). unfold p_claim_one in E.
    apply bind_ok in E as (a & Ea & E). apply bind_ok in E as (rc & Erc & E). apply bind_ok in E as (rd & Erd & E).
    apply bind_ok in E as ([bal sup] & Ebs & E). apply bind_ok in E as (sc & Esc & E).
    apply bind_ok in E as ([n p2] & Eem & E). apply bind_ok in E as (t2 & Et & E). injection E as <- <-.
    apply i128_ok in Et as [-> _]. simpl in *.
    assert (0 <= id) as Hid by (apply Hn; left).
    destruct (l !! Z.to_nat (id ÷ 2)) as [a0|] eqn:Ela; [|discriminate]. injection Ea as ->.
    destruct (ps_rcfg p !! a) as [rc0|] eqn:Erc0; [|discriminate]. injection Erc as ->.
    destruct (ps_rdata p !! a) as [rd0|] eqn:Erd0; [|discriminate]. injection Erd as ->.
    rewrite Z.quot_div_nonneg in * by lia.
    assert (rc_index rc = id / 2) as Hri.
    { rewrite Hl in Ela. destruct (cw_idx p (gd_cfg _ G) _ _ Ela) as (c' & Hc' & Hci). assert (c' = rc) by congruence. subst c'.
      rewrite Hci. apply Z2Nat.id. apply Z.div_pos; lia. }
    assert (exists k, id = tid k (rc_index rc) /\ sup = sup_k k rd /\ bal = ebal k (get_pos p from) (rc_index rc)) as (k & Hk1 & Hk2 & Hk3).
    { rewrite Hri. pose proof (Z.div_mod id 2 ltac:(lia)) as Hdm. destruct (id mod 2 =? 0) eqn:Em.
      - injection Ebs as <- <-. exists KLiab. simpl. rewrite Hpos. split; [lia|done].
      - apply bind_ok in Ebs as (t & Et & Ebs). injection Ebs as <- <-. exists KColl. simpl.
        pose proof (Z.mod_pos_bound id 2 ltac:(lia)). split; [lia|]. split; [done|]. unfold get_total in Et. apply i128_ok in Et as [-> _]. by rewrite Hpos. }
    unfold pow10 in Esc. apply i128_ok in Esc as [-> _].
    rewrite Hk2, Hk3 in Eem. rewrite Hk1 in Eem.
    pose proof (pm_emis now p k from a rc rd true n p2 Erc0 Erd0 Eem) as M. rewrite <- Hk1 in M.
    pose proof (pmove_good _ _ _ _ G M) as G2.
    pose proof (p_emissions_emis _ _ _ _ _ _ _ _ _ _ Eem) as Hse. destruct (emis_ecfg _ _ Hse) as (_ & _ & Hps).
    eapply IH in H as (es & He1 & He2 & T); [|done|intros; apply Hn; by right| |].
    + exists ((id, n) :: es). simpl. split; [f_equal; exact He1|]. split; [lia|]. by eapply pt_cons.
    + rewrite Hpos. unfold get_pos. by rewrite Hps.
    + rewrite Hl. by rewrite Hse.
Qed.

Lemma claim_sim c self px from ids to tot px' :
  good (px_p px) -> (forall i, i ∈ ids -> 0 <= i) -> p_claim c self px from ids to = Ok (tot, px') ->
  need_auth c from = Ok tt /\
  exists es, es.*1 = ids /\ tot = sumz snd es /\ ptrace (c_now c) (px_p px) (claim_lbls from es) (px_p px') /\
    ((0 < tot /\ exists t, transfer_from (as_contract c self) (x_tok (px_x px)) (ps_blnd (px_p px)) self (ps_backstop (px_p px)) to tot = Ok t /\
       px_x px' = (px_x px) <| x_tok := t |>) \/ (tot <= 0 /\ px_x px' = px_x px)).
Proof.
  intros G Hn H. unfold p_claim in H. apply bind_ok in H as ([] & Ea & H). split; [done|].
  apply bind_ok in H as ([tt0 p1] & E & H). eapply claim_fold_sim in E as (es & H1 & H2 & T); [|done|done|done|done].
  exists es. split; [done|]. destruct (0 <? tt0) eqn:Ez.
  - apply bind_ok in H as (t & Et & H). injection H as <- <-. split; [lia|]. split; [done|]. left. split; [lia|]. eauto.
  - injection H as <- <-. split; [lia|]. split; [done|]. right. split; [lia|done].
Qed.
