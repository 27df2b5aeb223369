(** * bad_debt, liquidation creation and claims as moves of the pool storage *)
From Verif Require Import Base Types Token Emitter Factory Backstop PoolReserve PoolUser PoolHealth
  PoolAuction PoolSubmit PoolEmis PoolAdmin World Facts PoolFrame PoolCfg PoolAccrue PoolTrace PoolInv AuctionFacts PoolSim PoolReq PoolHF.

(** ** bad_debt *)
Definition bd_lbls (user bs : Addr) (l : list Addr) (es : list (Z * Z)) : list label :=
  flat_map (fun e => match l !! Z.to_nat e.1 with
                     | Some a => [LAcc a; LPos KLiab bs a e.2; LPos KLiab user a (- e.2)]
                     | None => [] end) es.

Lemma list_get_ok l i a : list_get l i = Ok a -> 0 <= i /\ l !! Z.to_nat i = Some a.
Proof.
  unfold list_get. destruct (i <? 0) eqn:E; [discriminate|]. intros H. split; [lia|].
  destruct (l !! Z.to_nat i); [|discriminate]. by injection H as ->.
Qed.

Lemma bad_debt_steps_sim now user bs l : user <> bs -> forall es p ch ov up bp p' ch' up' bp',
  cwf now p ch ov -> good (flush p ch ov) -> ov !! user = Some up -> ov !! bs = Some bp ->
  (forall i v, (i, v) ∈ es -> 0 < v) ->
  foldM (bad_debt_step now user bs l) (p, ch, up, bp) es = Ok (p', ch', up', bp') ->
  let ov' := <[user := up']> (<[bs := bp']> ov) in
  cwf now p' ch' ov' /\ good (flush p' ch' ov') /\
  ptrace now (flush p ch ov) (bd_lbls user bs l es) (flush p' ch' ov').
Proof.
  intros Hne. induction es as [|[i v] es IH]; simpl; intros p ch ov up bp p' ch' up' bp' W G Hu Hb Hpos H.
  - injection H as <- <- <- <-. rewrite (insert_id ov bs), (insert_id ov user) by done.
    split; [done|]. split; [done|]. constructor.
  - apply bind_ok in H as ([[[p1 ch1] up1] bp1] & E & H). unfold bad_debt_step in E. simpl in E.
    apply bind_ok in E as (a & Ea & E). apply bind_ok in E as ([r ch2] & El & E).
    apply bind_ok in E as ([[p2 bp2] r2] & Eadd & E). apply bind_ok in E as ([[p3 up3] r3] & Erem & E).
    injection E as <- <- <- <-. apply list_get_ok in Ea as [_ Ea]. rewrite Ea.
    pose proof (step_sim now p ch ov KLiab add_liabilities bs a bp r ch2 v p2 bp2 r2 v W G Hb) as Hs.
    destruct Hs as (W1 & M1 & _ & M2 & _ & G1 & Ha & Ha2 & _); [left; split; [done|]; split; [|done]; eapply Hpos; left|done|done|].
    assert (ch_res (cache_reserve ch2 r2) !! a = Some r2) as Hr2 by (simpl; rewrite Ha2; by rewrite lookup_insert).
    assert (a ∈ ch_store (cache_reserve ch2 r2)) as Hst2.
    { simpl. rewrite (load_store _ _ _ _ _ _ El). apply elem_add_store. by left. }
    pose proof (pos_sim now p2 (cache_reserve ch2 r2) (<[bs := bp2]> ov) KLiab remove_liabilities user a up r2 v p3 up3 r3 (- v) W1 (gd_pos _ G1)) as Hs.
    rewrite lookup_insert_ne in Hs by done. specialize (Hs Hu Hr2 Hst2). destruct Hs as (W2 & M3 & _); [right; done|done|].
    assert (r_asset r3 = a) as Ha3 by (apply (rem_changed KLiab) in Erem as (_ & (_ & _ & _ & ->) & _ & _); [done|done]).
    rewrite cache_cache in W2, M3 by congruence.
    pose proof (pmove_good _ _ _ _ G1 M3) as G2.
    eapply IH in H as (W3 & G3 & T); [|exact W2|exact G2|by rewrite lookup_insert|rewrite lookup_insert_ne by done; by rewrite lookup_insert|intros; eapply Hpos; by right].
    assert (<[user:=up']> (<[bs:=bp']> (<[user:=up3]> (<[bs:=bp2]> ov))) = <[user := up']> (<[bs := bp']> ov)) as Heq.
    { rewrite (insert_commute _ bs user) by done. rewrite insert_insert. by rewrite insert_insert. }
    rewrite Heq in *. split; [done|]. split; [done|].
    eapply pt_cons; [exact M1|]. eapply pt_cons; [exact M2|]. eapply pt_cons; [exact M3|]. done.
Qed.

Lemma bad_debt_sim c p user p' :
  good p -> p_bad_debt c p user = Ok p' ->
  user <> ps_backstop p /\ po_coll (get_pos p user) = ∅ /\ po_liab (get_pos p user) <> ∅ /\
  ptrace (c_now c) p ([LTouch (ps_backstop p); LTouch user] ++
    bd_lbls user (ps_backstop p) (ps_list p) (entries (po_liab (get_pos p user)))) p'.
Proof.
  intros G H. unfold p_bad_debt in H. apply assert_ok in H as [Hne H]. apply assert_ok in H as [Hl H].
  apply bind_ok in H as ([[[p1 ch1] up1] bp1] & E & H). apply bind_ok in H as (p2 & Est & H). injection H as <-.
  set (bs := ps_backstop p) in *. apply andb_true_iff in Hl as [Hc Hl]. apply bool_decide_eq_true in Hc.
  apply negb_true_iff, bool_decide_eq_false in Hl.
  assert (user <> bs) as Hn by lia. split; [done|]. split; [done|]. split; [done|].
  set (ov := <[user := get_pos p user]> {[bs := get_pos p bs]} : gmap Addr Positions).
  assert (flush p (pool_load p) ov = touch (touch p bs) user) as Hf.
  { rewrite flush_fresh. unfold touch, ov. simpl.
    assert (get_pos (p <| ps_pos := <[bs := get_pos p bs]> (ps_pos p) |>) user = get_pos p user) as ->
      by (unfold get_pos; simpl; by rewrite lookup_insert_ne).
    rewrite <- insert_union_l, <- insert_union_singleton_l. done. }
  assert (good (flush p (pool_load p) ov)) as G1 by (rewrite Hf; by apply touch_good, touch_good).
  eapply (bad_debt_steps_sim (c_now c) user bs (ps_list p) Hn _ p (pool_load p) ov) in E as (W & G2 & T).
  - assert (set_pos (set_pos p2 bs bp1) user up1 = flush p1 ch1 (<[user:=up1]> (<[bs:=bp1]> ov))) as ->.
    { apply (store_cached_flush _ _ _ _ _ W) in Est as ->. unfold set_pos, flush. simpl. unfold withrp; simpl.
      unfold ov. rewrite (insert_commute _ bs user) by done. rewrite insert_insert, insert_singleton.
      rewrite <- insert_union_l, <- insert_union_singleton_l. destruct p1; done. }
    eapply ptrace_app; [|exact T]. rewrite Hf. eapply pt_cons; [apply pm_touch|]. eapply pt_cons; [apply pm_touch|]. constructor.
  - apply pool_load_cwf.
  - exact G1.
  - unfold ov. by rewrite lookup_insert.
  - unfold ov. rewrite lookup_insert_ne by done. by rewrite lookup_singleton.
  - intros i v Hv. apply elem_of_entries in Hv. eapply (gd_pos p G user KLiab). exact Hv.
Qed.

Lemma accrue_supply now rate cfg d d' : accrue now rate cfg d = Ok d' ->
  rd_b_supply d' = rd_b_supply d /\ rd_d_supply d' = rd_d_supply d.
Proof.
  unfold accrue. intros H. destruct (now =? rd_last_time d) eqn:E; [by mon H|].
  destruct (rd_b_supply d =? 0); [by mon H|]. mon H.
  destruct (util =? 0); [by mon H|]. mon H. destruct (0 <? acc); by mon H.
Qed.

(** ** Dry runs: only the emission updates reach storage *)
Definition only_emis (u : Addr) (ls : list label) : Prop := forall l, l ∈ ls -> exists id n, l = LEmis u id false n.

Lemma emis_ecfg p p' : same_but_emis p p' -> ps_rcfg p' = ps_rcfg p /\ ps_rdata p' = ps_rdata p /\ ps_pos p' = ps_pos p.
Proof. intros ->. done. Qed.

Lemma dry_run now u s k rd po : forall l L L',
  NoDup l.*1 -> (forall a b ca cb, ps_rcfg L !! a = Some ca -> ps_rcfg L !! b = Some cb -> rc_index ca = rc_index cb -> a = b) ->
  ptrace now L (lbls k u s l) L' ->
  (forall a cfg, a ∈ l.*1 -> ps_rcfg L !! a = Some cfg -> exists d d0, ps_rdata L !! a = Some d /\ rd !! a = Some d0 /\
     sup_k k d0 = sup_k k d /\ ebal k (default no_positions (po !! u)) (rc_index cfg) = ebal k (get_pos L u) (rc_index cfg)) ->
  exists ls, only_emis u ls /\ ptrace now (withrp rd po L) ls (withrp rd po L').
Proof.
  induction l as [|[a v] l IH]; intros L L' Hnd Hidx T Hs.
  - inversion T; subst. exists []. split; [intros ? Hin; by apply elem_of_nil in Hin|]. constructor.
  - simpl in T. apply NoDup_cons in Hnd as [Hni Hnd]. simpl in Hni.
    inversion T as [|? ? L1 ? ? M1 T1]; subst. inversion T1 as [|? ? L2 ? ? M2 T2]; subst. clear T T1.
    inversion M1 as [? cfg0 d d' Hc Hd Hac| | | | |]; subst. clear M1.
    inversion M2 as [|? ? ? ? cfg d2 n p1 Hc2 Hd2 Hlast Hdl Hem Hb1 Hb2| | | |]; subst. clear M2.
    simpl in Hc2, Hd2. rewrite lookup_insert in Hd2. injection Hd2 as <-. assert (cfg0 = cfg) by congruence. subst cfg0.
    destruct (Hs a cfg ltac:(simpl; by left) Hc) as (d1 & d0 & Hd1 & Hd0 & Hsup & Hbal).
    assert (d1 = d) by congruence. subst d1.
    assert (sup_k k d' = sup_k k d) as Hsk.
    { assert (rd_b_supply d' = rd_b_supply d /\ rd_d_supply d' = rd_d_supply d) as [H1 H2] by (by eapply accrue_supply).
      by destruct k. }
    set (L1 := L <| ps_rdata := <[a := d']> (ps_rdata L) |>) in *.
    pose proof (p_emissions_emis _ _ _ _ _ _ _ _ _ _ Hem) as Hse.
    assert (get_pos L1 u = get_pos L u) as Hgp by done.
    rewrite Hgp, Hsk in Hem.
    pose proof (p_emissions_withrp rd po _ _ _ _ _ _ _ _ _ _ Hem) as Hem2.
    assert (withrp rd po L1 = withrp rd po L) as HL1 by (by destruct L). rewrite HL1 in Hem2.
    assert (ps_rcfg L1 = ps_rcfg L) as Hrc by done.
    eapply IH in T2 as (ls & Ho & T); [|done| |].
    + exists (LEmis u (tid k (rc_index cfg)) false n :: ls). split.
      { intros x Hx. apply elem_of_cons in Hx as [->|Hx]; [eauto|by apply Ho]. }
      eapply pt_cons; [|exact T].
      match goal with |- pmove _ _ _ (withrp rd po ?q) => assert (withrp rd po q = withrp rd po p1) as -> by (by destruct p1) end.
      eapply (pm_emis _ (withrp rd po L) k u a cfg d0 false n).
      * exact Hc.
      * exact Hd0.
      * rewrite Hsup. change (get_pos (withrp rd po L) u) with (default no_positions (po !! u)). rewrite Hbal. exact Hem2.
    + simpl. destruct (emis_ecfg _ _ Hse) as (-> & _). exact Hidx.
    + intros b cb Hin Hcb. simpl in Hcb. destruct (emis_ecfg _ _ Hse) as (Hrc' & _ & _). rewrite Hrc' in Hcb. simpl in Hcb.
      assert (b <> a) as Hba by (intros ->; done).
      destruct (Hs b cb ltac:(simpl; by right) Hcb) as (e & e0 & He & He0 & Hes & Heb).
      exists e, e0. split; [simpl; rewrite !lookup_insert_ne by done; exact He|]. split; [done|]. split; [done|].
      rewrite Heb. rewrite get_pos_set_ps. rewrite decide_True by done. rewrite ebal_set.
      destruct (Z.eqb_spec (rc_index cfg) (rc_index cb)) as [Heq|]; [|rewrite andb_false_r, Hgp; lia].
      exfalso. apply Hba. symmetry. eapply Hidx; eauto.
Qed.

Lemma lbls_frame now k u s : forall l L L', ptrace now L (lbls k u s l) L' ->
  (forall a d, ps_rdata L !! a = Some d -> exists d', ps_rdata L' !! a = Some d' /\ forall k', same_side k k' = false -> sup_k k' d' = sup_k k' d) /\
  (forall k' u' i, same_side k k' = false -> ebal k' (get_pos L' u') i = ebal k' (get_pos L u') i) /\
  same_cfg L L'.
Proof.
  induction l as [|[a v] l IH]; intros L L' T.
  - inversion T; subst. split; [eauto|done].
  - simpl in T. inversion T as [|? ? L1 ? ? M1 T1]; subst. inversion T1 as [|? ? L2 ? ? M2 T2]; subst. clear T T1.
    pose proof (cfg_trans _ _ _ (pmove_cfg _ _ _ _ M1) (pmove_cfg _ _ _ _ M2)) as Hcfg.
    apply IH in T2 as (H1 & H2 & H3). split; [|split; [|by eapply cfg_trans]].
    + intros b d Hd.
      inversion M1 as [? cfg0 d0 d' Hc Hd0 Hac| | | | |]; subst. clear M1.
      inversion M2 as [|? ? ? ? cfg d2 n p1 Hc2 Hd2 Hlast Hdl Hem Hb1 Hb2| | | |]; subst. clear M2.
      destruct (decide (b = a)) as [->|Hne].
      * simpl in Hd2. rewrite lookup_insert in Hd2. injection Hd2 as <-. assert (d0 = d) by congruence. subst d0.
        destruct (H1 a (set_sup_k k (sup_k k d' + s * v) d')) as (d3 & Hd3 & Hs3); [simpl; by rewrite lookup_insert|].
        exists d3. split; [done|]. intros k' Hk. rewrite (Hs3 _ Hk), sup_set, Hk.
        assert (rd_b_supply d' = rd_b_supply d /\ rd_d_supply d' = rd_d_supply d) as [? ?] by (by eapply accrue_supply).
        by destruct k'.
      * destruct (H1 b d) as (d3 & Hd3 & Hs3); [simpl; by rewrite !lookup_insert_ne by done|]. eauto.
    + intros k' u' i Hk. rewrite (H2 _ _ _ Hk).
      inversion M1 as [? cfg0 d0 d' Hc Hd0 Hac| | | | |]; subst. clear M1.
      inversion M2 as [|? ? ? ? cfg d2 n p1 Hc2 Hd2 Hlast Hdl Hem Hb1 Hb2| | | |]; subst. clear M2.
      rewrite get_pos_set_ps. destruct (decide (u' = u)) as [->|]; [|done]. rewrite ebal_set, Hk. simpl. rewrite Z.add_0_r. done.
Qed.

(** ** Positions along a trace *)

(** shares of kind [k] that [u] holds in the reserve of asset [a] *)
Definition shares (p : PoolSt) (k : kind) (u a : Addr) : Z :=
  match ps_rcfg p !! a with Some cfg => getz (get_k k (get_pos p u)) (rc_index cfg) | None => 0 end.
Definition contrib (k : kind) (u a : Addr) (l : label) : Z :=
  match l with LPos k' u' a' d => if decide (k' = k /\ u' = u /\ a' = a) then d else 0 | _ => 0 end.

Lemma move_shares now p l p' k u a : cfg_wf p -> pmove now p l p' -> shares p' k u a = shares p k u a + contrib k u a l.
Proof.
  intros G M. pose proof (pmove_cfg _ _ _ _ M) as (_ & _ & _ & _ & _ & _ & Hrc & _).
  unfold shares. rewrite Hrc. destruct (ps_rcfg p !! a) as [cfg|] eqn:Ea.
  - rewrite (pmove_positions _ _ _ _ k u (rc_index cfg) M). f_equal.
    destruct M as [ | k' u' a' dl cfg' d n p1 H1 H2 H3 H4 H5 H6 H7| | | |]; simpl; try done.
    rewrite H1. destruct (decide (k' = k /\ u' = u /\ a' = a)) as [(-> & -> & ->)|Hn].
    + rewrite decide_True; [done|]. assert (cfg' = cfg) by congruence. by subst.
    + rewrite decide_False; [done|]. intros (-> & -> & Hi). apply Hn. split; [done|]. split; [done|].
      by eapply good_index.
  - destruct M as [ | k' u' a' dl cfg' d n p1 H1 H2 H3 H4 H5 H6 H7| | | |]; simpl; try done.
    rewrite decide_False; [done|]. intros (_ & _ & ->). congruence.
Qed.
Lemma trace_shares now p ls p' k u a : good p -> ptrace now p ls p' ->
  shares p' k u a = shares p k u a + sumz (contrib k u a) ls.
Proof.
  intros G T. revert G. induction T as [|p l p1 ls p2 M T IH]; simpl; intros G; [lia|].
  rewrite IH by (by eapply pmove_good). rewrite (move_shares _ _ _ _ k u a (gd_cfg _ G) M). lia.
Qed.

Lemma sum_entries (m : gmap Addr Z) a (f : Z -> Z) :
  sumz (fun e : Addr * Z => if decide (e.1 = a) then f e.2 else 0) (entries m) = match m !! a with Some v => f v | None => 0 end.
Proof.
  pose proof (entries_fst_NoDup m) as Hnd.
  assert (forall l : list (Addr * Z), NoDup l.*1 ->
    sumz (fun e : Addr * Z => if decide (e.1 = a) then f e.2 else 0) l =
    match list_to_map (M := gmap Addr Z) l !! a with Some v => f v | None => 0 end) as Hl.
  { induction l as [|[b v] l IH]; simpl; intros H; [by rewrite lookup_empty|].
    apply NoDup_cons in H as [H1 H2]. destruct (decide (b = a)) as [->|Hne].
    - rewrite lookup_insert. rewrite IH by done.
      assert (list_to_map (M := gmap Addr Z) l !! a = None) as -> by (by apply not_elem_of_list_to_map). lia.
    - rewrite lookup_insert_ne by done. rewrite IH by done. lia. }
  rewrite (Hl _ Hnd). destruct (m !! a) as [v|] eqn:E.
  - apply elem_of_entries in E. by rewrite (elem_of_list_to_map_1 _ _ _ Hnd E).
  - rewrite (not_elem_of_list_to_map_1 (M := gmap Addr)); [done|]. intros Hin.
    apply elem_of_list_fmap in Hin as ([b v] & -> & Hin). apply elem_of_entries in Hin. simpl in E. congruence.
Qed.

Lemma contrib_lbls k u s (m : gmap Addr Z) k' u' a :
  sumz (contrib k' u' a) (lbls k u s (entries m)) = if decide (k = k' /\ u = u') then s * getz m a else 0.
Proof.
  transitivity (sumz (fun e : Addr * Z => if decide (e.1 = a) then (if decide (k = k' /\ u = u') then s * e.2 else 0) else 0) (entries m)).
  - generalize (entries m). induction l as [|[b v] l IH]; simpl; [done|]. rewrite IH.
    destruct (decide (k = k' /\ u = u')) as [[-> ->]|Hn]; destruct (decide (b = a)) as [->|Hb].
    + rewrite decide_True by done. lia.
    + rewrite decide_False by (intros (_ & _ & ->); done). lia.
    + rewrite decide_False by (intros (? & ? & ?); tauto). lia.
    + rewrite decide_False by (intros (? & ? & ?); tauto). lia.
  - rewrite (sum_entries m a (fun v => if decide (k = k' /\ u = u') then s * v else 0)). unfold getz. destruct (decide _); destruct (m !! a); simpl; lia.
Qed.

(** ** Rates as of now do not change during a transaction *)
Lemma move_data now p l p' a : pmove now p l p' ->
  rd_b_rate (data_at now p' a) = rd_b_rate (data_at now p a) /\ rd_d_rate (data_at now p' a) = rd_d_rate (data_at now p a).
Proof.
  intros M. pose proof (pmove_cfg _ _ _ _ M) as (_ & _ & _ & _ & Hcf & _ & Hrc & _).
  unfold data_at. rewrite Hrc, Hcf. destruct (ps_rcfg p !! a) as [cfg|] eqn:Ea; [|done].
  destruct M as [b cfg' d d' H1 H2 H3|k' u' b dl cfg' d n p1 H1 H2 H3 H4 H5 H6 H7|b n d H1 H2 H3|k' u' b cfg' d cl n p1 H1 H2 H3| |]; simpl; try done.
  - destruct (decide (b = a)) as [->|]; [|by rewrite lookup_insert_ne]. rewrite lookup_insert, H2.
    assert (cfg' = cfg) by congruence. subst cfg'. rewrite H3. by rewrite accrue_id by (by eapply accrue_last).
  - destruct (decide (b = a)) as [->|]; [|by rewrite lookup_insert_ne]. rewrite lookup_insert, H2.
    rewrite !accrue_id by (by destruct k'). by destruct k'.
  - destruct (decide (b = a)) as [->|]; [|by rewrite lookup_insert_ne]. rewrite lookup_insert, H1.
    by rewrite !accrue_id by done.
  - apply p_emissions_emis in H3. destruct (emis_ecfg _ _ H3) as (_ & -> & _). done.
Qed.
Lemma trace_data now p ls p' a : ptrace now p ls p' ->
  rd_b_rate (data_at now p' a) = rd_b_rate (data_at now p a) /\ rd_d_rate (data_at now p' a) = rd_d_rate (data_at now p a).
Proof. induction 1 as [|p l p1 ls p2 M T [IH1 IH2]]; [done|]. rewrite IH1, IH2. by eapply move_data. Qed.

Lemma sumz_ext_in {A} (f g : A -> Z) l : (forall x, x ∈ l -> f x = g x) -> sumz f l = sumz g l.
Proof. induction l; simpl; intros H; [done|]. rewrite H by left. rewrite IHl; [done|]. intros; apply H; by right. Qed.

Lemma trace_values now p ls p' x pos : ptrace now p ls p' ->
  eff_coll now p' x pos = eff_coll now p x pos /\ raw_coll now p' x pos = raw_coll now p x pos /\
  eff_liab now p' x pos = eff_liab now p x pos /\ raw_liab now p' x pos = raw_liab now p x pos.
Proof.
  intros T. pose proof (ptrace_cfg _ _ _ _ T) as (_ & _ & _ & _ & Hcf & Hli & Hrc & _).
  unfold eff_coll, raw_coll, eff_liab, raw_liab, over_reserves. rewrite Hli.
  repeat split; apply sumz_ext_in; intros [i a] _; simpl;
    destruct (trace_data _ _ _ _ a T) as [H1 H2];
    unfold coll_eff1, coll_raw1, liab_eff1, liab_raw1, b_assets, d_assets, price_of, cfg_of; by rewrite ?H1, ?H2, ?Hrc, ?Hcf.
Qed.
