(** * Pool properties: C09, C10, C11, C12, C23 *)
From Verif Require Import Base Types Token Emitter Factory Backstop PoolReserve PoolUser PoolHealth
  PoolAuction PoolSubmit PoolEmis PoolAdmin World Facts XMove Spec PoolFrame PoolCfg PoolAccrue PoolTrace PoolInv AuctionFacts
  PoolSim PoolReq PoolHF PoolOps PoolLiq PoolReach PoolTx FrameFacts PropsPool1.

(** ** Share supplies along a trace *)
Definition side (k : kind) : bool := match k with KLiab => true | _ => false end.
Definition tsup (k : kind) (a : Addr) (l : label) : Z :=
  match l with LPos k' _ a' d => if decide (side k' = side k /\ a' = a) then d else 0 | _ => 0 end.

Lemma move_supply now p l p' a d : pmove now p l p' -> ps_rdata p !! a = Some d ->
  exists d', ps_rdata p' !! a = Some d' /\ (forall k, sup_k k d' = sup_k k d + tsup k a l) /\
    (rd_last_time d = now -> rd_last_time d' = now /\ rd_b_rate d' = rd_b_rate d /\ rd_d_rate d' = rd_d_rate d).
Proof.
  intros M Hd.
  destruct M as [b cfg' d0 d' H1 H2 H3|k' u' b dl cfg' d0 n p1 H1 H2 H3 H4 H5 H6 H7|b n d0 H1 H2 H3|k' u' b cfg' d0 cl n p1 H1 H2 H3| |]; cbn [tsup].
  - simpl. destruct (decide (b = a)) as [->|]; [rewrite lookup_insert|rewrite lookup_insert_ne by done; eexists; split; [done|]; split; [intros; lia|done]].
    assert (d0 = d) by congruence. subst d0. eexists; split; [done|]. split.
    + intros k. apply accrue_supply in H3 as [? ?]. destruct k; simpl; lia.
    + intros Hn. rewrite accrue_id in H3 by done. injection H3 as <-. done.
  - simpl. destruct (decide (b = a)) as [->|].
    + rewrite lookup_insert. assert (d0 = d) by congruence. subst d0. eexists; split; [done|]. split.
      * intros k. destruct (decide (side k' = side k /\ a = a)) as [[He _]|Hn].
        -- destruct k', k; simpl in *; first [discriminate | lia].
        -- destruct k', k; simpl in *; first [lia | exfalso; apply Hn; done].
      * intros _. destruct k'; done.
    + rewrite lookup_insert_ne by done. eexists; split; [done|]. split; [|done]. intros k. rewrite decide_False by tauto. lia.
  - simpl. destruct (decide (b = a)) as [->|]; [rewrite lookup_insert|rewrite lookup_insert_ne by done; eexists; split; [done|]; split; [intros; lia|done]].
    assert (d0 = d) by congruence. subst d0. eexists; split; [done|]. split; [|done]. intros k. destruct k; simpl; lia.
  - apply p_emissions_emis in H3. destruct (emis_ecfg _ _ H3) as (_ & -> & _). exists d. split; [done|]. split; [intros; lia|done].
  - simpl. exists d. split; [done|]. split; [intros; lia|done].
  - simpl. exists d. split; [done|]. split; [intros; lia|done].
Qed.
Lemma trace_supply now p ls p' a d : ptrace now p ls p' -> ps_rdata p !! a = Some d ->
  exists d', ps_rdata p' !! a = Some d' /\ (forall k, sup_k k d' = sup_k k d + sumz (tsup k a) ls) /\
    (rd_last_time d = now -> rd_last_time d' = now /\ rd_b_rate d' = rd_b_rate d /\ rd_d_rate d' = rd_d_rate d).
Proof.
  intros T. revert d. induction T as [|p l p1 ls p2 M T IH]; intros d Hd.
  - exists d. split; [done|]. split; [intros; simpl; lia|done].
  - destruct (move_supply _ _ _ _ _ _ M Hd) as (d1 & Hd1 & H1 & H1'). destruct (IH _ Hd1) as (d2 & Hd2 & H2 & H2').
    exists d2. split; [done|]. split; [intros k; rewrite H2, H1, sumz_cons; lia|].
    intros Hn. destruct (H1' Hn) as (? & ? & ?). destruct H2' as (? & ? & ?); [done|]. split; [done|]. split; congruence.
Qed.

Lemma tsup_lbls k u s (m : gmap Addr Z) k' a :
  sumz (tsup k' a) (lbls k u s (entries m)) = if decide (side k = side k') then s * getz m a else 0.
Proof.
  transitivity (sumz (fun e : Addr * Z => if decide (e.1 = a) then (if decide (side k = side k') then s * e.2 else 0) else 0) (entries m)).
  - unfold lbls. induction (entries m) as [|[b v] l IH]; [done|]. simpl flat_map. rewrite ?sumz_cons, ?sumz_nil, IH. cbn [tsup fst snd].
    destruct (decide (b = a)); destruct (decide (side k = side k')); repeat (first [rewrite decide_True by tauto | rewrite decide_False by tauto]); lia.
  - rewrite (sum_entries m a (fun v => if decide (side k = side k') then s * v else 0)).
    unfold getz. destruct (m !! a); simpl; [done|]. destruct (decide _); lia.
Qed.
Lemma tsup_rm k u coll liab a : sumz (tsup k a) (rm_lbls u coll liab) = if side k then - getz liab a else - getz coll a.
Proof. unfold rm_lbls. rewrite sumz_app, !tsup_lbls. destruct k; simpl; lia. Qed.
Lemma tsup_add k u coll liab a : sumz (tsup k a) (add_lbls u coll liab) = if side k then getz liab a else getz coll a.
Proof. unfold add_lbls. rewrite sumz_app, !tsup_lbls. destruct k; simpl; lia. Qed.
Lemma tsup_cred l k a : sumz (tsup k a) (cred_lbls l) = 0.
Proof. induction l as [|e l IH]; [done|]. unfold cred_lbls in *. simpl flat_map. rewrite !sumz_cons, IH. cbn [tsup]. lia. Qed.
Lemma tsup_bd k user bs l a : forall es, sumz (tsup k a) (bd_lbls user bs l es) = 0.
Proof.
  induction es as [|[j v] es IH]; [done|]. unfold bd_lbls in *. simpl. rewrite sumz_app, IH.
  destruct (l !! Z.to_nat j); rewrite ?sumz_cons, ?sumz_nil; cbn [tsup]; [|lia]. destruct (decide _); lia.
Qed.

Lemma list_to_map_entries (m : gmap Z Z) : (list_to_map (entries m) : gmap Z Z) = m.
Proof.
  apply map_eq. intros i. destruct (m !! i) as [v|] eqn:E.
  - apply elem_of_list_to_map_1; [apply entries_fst_NoDup|]. by apply elem_of_entries.
  - apply not_elem_of_list_to_map_1. intros Hin. apply elem_of_list_fmap in Hin as ([j v] & -> & Hin). apply elem_of_entries in Hin. simpl in E. congruence.
Qed.
(** the burned debts are the backstop's liabilities *)
Lemma burn_map_full l liab m : NoDup l -> burn_map l liab = Ok m ->
  forall a, m !! a = match list_find (eq a) l with Some (i, _) => liab !! Z.of_nat i | None => None end.
Proof.
  intros Hl. unfold burn_map. intros H a.
  assert (forall es m0, NoDup es.*1 -> foldM (fun m e => let? a := list_get l (fst e) in Ok (<[a := snd e]> m)) m0 es = Ok m ->
    m !! a = match list_find (eq a) l with Some (i, _) => match (list_to_map es : gmap Z Z) !! Z.of_nat i with Some v => Some v | None => m0 !! a end | None => m0 !! a end) as Hf.
  { clear H. induction es as [|[j v] es IH]; simpl; intros m0 Hn H.
    - injection H as ->. destruct (list_find (eq a) l) as [[i b]|]; [|done]. by rewrite lookup_empty.
    - apply NoDup_cons in Hn as [Hj Hn]. apply bind_ok in H as (m1 & E & H). apply bind_ok in E as (b & E & E'). injection E' as <-.
      apply list_get_ok in E as [Hj0 Hb]. rewrite (IH _ Hn H).
      destruct (list_find (eq a) l) as [[i c]|] eqn:Ef.
      + apply list_find_Some in Ef as (Hi & <- & _). destruct (decide (j = Z.of_nat i)) as [->|Hji].
        * rewrite Nat2Z.id in Hb. assert (b = a) by congruence. subst b. rewrite lookup_insert, lookup_insert.
          assert ((list_to_map es : gmap Z Z) !! Z.of_nat i = None) as -> by (by apply not_elem_of_list_to_map_1). done.
        * rewrite (lookup_insert_ne (list_to_map es) j) by done. destruct (list_to_map es !! Z.of_nat i); [done|]. apply lookup_insert_ne.
          intros ->. apply Hji. pose proof (NoDup_lookup l _ _ _ Hl Hb Hi). lia.
      + rewrite list_find_None in Ef. apply lookup_insert_ne. intros ->. rewrite Forall_forall in Ef. eapply Ef; [|reflexivity].
        by eapply elem_of_list_lookup_2. }
  rewrite (Hf _ _ (entries_fst_NoDup _) H). destruct (list_find (eq a) l) as [[i c]|]; [|by rewrite lookup_empty].
  rewrite list_to_map_entries. destruct (liab !! Z.of_nat i); [done|]. by rewrite lookup_empty.
Qed.

(** ** C09: the pool status gates requests *)

(** request types: 0 supply, 2 supply collateral, 4 borrow, 9 delete liquidation auction *)
Theorem C09_status_gates_requests : forall w sg a from spender to qs out w' q,
  reachable w -> exec w (OPool sg a (PSubmit from spender to qs)) = Ok (out, w') -> q ∈ qs ->
  (rq_type q = 4 \/ rq_type q = 9 -> pc_status (ps_config (pool w a)) <= 1) /\
  (rq_type q = 0 \/ rq_type q = 2 -> pc_status (ps_config (pool w a)) <= 3).
Proof.
  intros w sg a from spender to qs out w' q Hr H Hin.
  apply submit_tx in H as (G & _ & _ & _ & _ & _ & _ & _ & _ & ls & x1 & ac & chk & t1 & t2 & pos & _ & _ & Hqs & _); [|done].
  destruct (areqs_in _ _ _ _ _ _ _ _ Hqs Hin) as (qs1 & qs2 & s1 & s2 & l1 & l & l2 & _ & H1 & _ & Hal & _).
  apply areqs_cfg in H1 as (_ & _ & _ & _ & Hc & _). cbn [as_p] in Hc. rewrite Hc in Hal. exact Hal.
Qed.

(** ** C10: position count limit *)
Definition position_count (pos : Positions) : Z := Z.of_nat (size (po_liab pos)) + Z.of_nat (size (po_coll pos)).
Theorem C10_position_count : forall w sg a from spender to qs out w',
  reachable w -> exec w (OPool sg a (PSubmit from spender to qs)) = Ok (out, w') ->
  position_count (positions w' a from) <=
    Z.max (position_count (positions w a from)) (pc_max_positions (ps_config (pool w a))).
Proof.
  intros w sg a from spender to qs out w' Hr H.
  apply submit_tx in H as (_ & _ & _ & _ & _ & _ & _ & _ & _ & ls & x1 & ac & chk & t1 & t2 & pos & _ & -> & _ & _ & _ & _ & Hc & _); [|done].
  unfold positions, position_count. unfold eff_count in Hc. lia.
Qed.

(** ** C11: borrowing respects the utilization cap *)

(** underlying owed to the pool (rounded up) and owned by suppliers (rounded down) *)
Definition total_debt (d : ResData) : Z := cdiv (rd_d_supply d * rd_d_rate d) 1000000000.
Definition total_supplied (d : ResData) : Z := rd_b_supply d * rd_b_rate d / 1000000000.
(** debt over supply, rounded up, 7 decimals, is at most [max] *)
Definition util_at_most (d : ResData) (max : Z) : Prop :=
  0 < total_supplied d /\ cdiv (total_debt d * 10000000) (total_supplied d) <= max.

Lemma good_rdok p a d : good p -> ps_rdata p !! a = Some d -> rd_ok d.
Proof. intros. by eapply good_rd. Qed.

(** requests other than a withdrawal do not raise the utilization of a reserve *)
Lemma areq_nowithdraw c self from q s ls s' a d :
  areq c self from q s ls s' -> good (as_p s) -> 0 <= rq_amt q -> ~ (rq_addr q = a /\ (rq_type q = 1 \/ rq_type q = 3 \/ rq_type q = 4)) ->
  ps_rdata (as_p s) !! a = Some d -> rd_last_time d = c_now c ->
  exists d', ps_rdata (as_p s') !! a = Some d' /\ rd_last_time d' = c_now c /\ rd_b_rate d' = rd_b_rate d /\ rd_d_rate d' = rd_d_rate d /\
    rd_b_supply d <= rd_b_supply d' /\ rd_d_supply d' <= rd_d_supply d.
Proof.
  intros H G Hamt Hnw Hd Hl. pose proof (areq_trace _ _ _ _ _ _ _ H) as T.
  destruct (trace_supply _ _ _ _ _ _ T Hd) as (d' & Hd' & Hs & Hr). destruct (Hr Hl) as (Hr1 & Hr2 & Hr3).
  exists d'. split; [done|]. do 3 (split; [done|]). pose proof (Hs KLiab) as HH1. pose proof (Hs KColl) as HH2. simpl in HH1, HH2.
  assert (0 <= sumz (tsup KColl a) ls /\ sumz (tsup KLiab a) ls <= 0); [|lia]. clear HH1 HH2 Hs Hr T Hd'.
  destruct H as [L x ac chk cfg d1 L1 L2 d2 dl pin pout ac' Ht Hc M1 Hd1 Hfl M2 Hd2 Hu Hp1 Hp2 A1 A2|L x ac chk au tf rem L1 Ht Hn Hau Hsc T|L x ac chk au tf rem L1 L2 btok lot x1 x2 m Ht Hn1 Hn2 Hau Hsc T1 T2 Hbt Hlot Hdr Hm'|L x ac chk au tf rem L1 btok bid x1 t2 Ht Hn1 Hn2 Hau Hsc|L x ac chk au Ht Hau];
    rewrite ?sumz_app, ?sumz_cons, ?sumz_app, ?sumz_nil, ?tsup_rm, ?tsup_add, ?tsup_cred; cbn [tsup]; simpl side; cbv iota; try lia.
  - destruct (decide (rq_addr q = a)) as [Ha|Ha]; [|rewrite !decide_False by tauto; lia].
    assert (rq_type q = 0 \/ rq_type q = 2 \/ rq_type q = 5) as Ht' by (assert (~ (rq_type q = 1 \/ rq_type q = 3 \/ rq_type q = 4)) by tauto; lia).
    assert (good L1) as G1 by (by eapply pmove_good). cbn [as_p] in G.
    destruct (gd_rate _ G1 _ _ Hd1) as (R1 & R2 & _). vals. set (cur := getz _ _) in Hfl.
    assert (0 <= cur) by (apply pos_ok_getz, G1). clearbody cur.
    unfold flow in Hfl. destruct Ht' as [E|[E|E]]; rewrite E in Hfl |- *; simpl in Hfl;
      change (req_kind 0) with KSup; change (req_kind 2) with KColl; change (req_kind 5) with KLiab; cbn [side].
    + injection Hfl as <- <- <-. rewrite decide_True by done. rewrite decide_False by (intros [? ?]; done). split; [|lia].
      assert (0 <= rq_amt q * 1000000000 / rd_b_rate d1) by (apply Z.div_pos; nia). lia.
    + injection Hfl as <- <- <-. rewrite decide_True by done. rewrite decide_False by (intros [? ?]; done). split; [|lia].
      assert (0 <= rq_amt q * 1000000000 / rd_b_rate d1) by (apply Z.div_pos; nia). lia.
    + rewrite decide_False by (intros [? ?]; done). rewrite decide_True by done. split; [lia|].
      assert (0 <= rq_amt q * 1000000000 / rd_d_rate d1) by (apply Z.div_pos; nia).
      destruct (cur <? _) in Hfl; injection Hfl as <- <- <-; lia.
  - apply scale_pos in Hsc as [[Hp1 Hp2] _]; [|apply as_u64_nonneg].
    assert (forall b, 0 <= getz m b) as Hm.
    { destruct Hm' as [(-> & _)|(_ & Hbm & _)]; [intros b; unfold getz; by rewrite lookup_empty|]. intros b. cbn [as_p] in G. unfold getz. rewrite (burn_map_full _ _ _ (cw_nodup _ (gd_cfg _ G)) Hbm b).
      destruct (list_find (eq b) (ps_list L)) as [[i ?]|]; [|simpl; lia]. apply (pos_ok_getz L1 (ps_backstop L) KLiab).
      apply ptrace_good in T1; [apply T1|done]. }
    pose proof (Hm a). change (getz ∅ a) with 0 in *. lia.
Qed.

Lemma areqs_nowithdraw c self from s qs ls s' a : areqs c self from s qs ls s' -> forall d,
  good (as_p s) -> (forall q, q ∈ qs -> ~ (rq_addr q = a /\ (rq_type q = 1 \/ rq_type q = 3 \/ rq_type q = 4))) ->
  ps_rdata (as_p s) !! a = Some d -> rd_last_time d = c_now c ->
  exists d', ps_rdata (as_p s') !! a = Some d' /\ rd_last_time d' = c_now c /\ rd_b_rate d' = rd_b_rate d /\ rd_d_rate d' = rd_d_rate d /\
    rd_b_supply d <= rd_b_supply d' /\ rd_d_supply d' <= rd_d_supply d.
Proof.
  induction 1 as [s|s q qs l1 s1 l2 s2 Hamt Hal Hq Hqs IH]; intros d G Hnw Hd Hl.
  - exists d. split; [done|]. do 3 (split; [done|]). lia.
  - destruct (areq_nowithdraw _ _ _ _ _ _ _ a d Hq G Hamt (Hnw q ltac:(left)) Hd Hl) as (d1 & Hd1 & Hl1 & B1 & D1 & S1 & S2).
    assert (good (as_p s1)) as G1 by (eapply ptrace_good; [exact G|by eapply areq_trace]).
    destruct (IH d1 G1) as (d2 & Hd2 & Hl2 & B2 & D2 & S3 & S4); [intros; apply Hnw; by right|done|done|].
    exists d2. split; [done|]. split; [done|]. split; [congruence|]. split; [congruence|]. lia.
Qed.

Lemma util_mono d d' m : rd_ok d -> rd_ok d' -> rd_b_rate d' = rd_b_rate d -> rd_d_rate d' = rd_d_rate d ->
  rd_b_supply d <= rd_b_supply d' -> rd_d_supply d' <= rd_d_supply d -> util_at_most d m -> util_at_most d' m.
Proof.
  intros W W' Hb Hd Hbs Hds [H1 H2]. unfold util_at_most, total_supplied, total_debt in *. rewrite Hb, Hd.
  destruct W as [W1 W2 W3 W4 W5], W' as [V1 V2 V3 V4 V5]; vals.
  assert (rd_b_supply d * rd_b_rate d / 1000000000 <= rd_b_supply d' * rd_b_rate d / 1000000000) as Hle by (apply Z.div_le_mono; nia).
  assert (cdiv (rd_d_supply d' * rd_d_rate d) 1000000000 <= cdiv (rd_d_supply d * rd_d_rate d) 1000000000) as Hlc by (apply cdiv_mono; nia).
  assert (0 <= cdiv (rd_d_supply d * rd_d_rate d) 1000000000) by (apply cdiv_nonneg; nia).
  split; [lia|]. apply cdiv_le_iff; [lia|]. apply cdiv_le_iff in H2; [|lia].
  assert (0 <= m); [|nia]. clear - H1 H2 H. nia.
Qed.

(** right after a borrow request, and until a later request of the same submit withdraws from
    or borrows the same reserve *)
Theorem C11_borrow_capped : forall w sg a from spender to qs1 q qs2 out w',
  reachable w -> exec w (OPool sg a (PSubmit from spender to (qs1 ++ q :: qs2))) = Ok (out, w') ->
  rq_type q = 4 ->
  (forall q', q' ∈ qs2 -> rq_addr q' = rq_addr q -> rq_type q' <> 1 /\ rq_type q' <> 3 /\ rq_type q' <> 4) ->
  exists cfg d, ps_rcfg (pool w a) !! rq_addr q = Some cfg /\ reserve w' a (rq_addr q) = Some d /\
    util_at_most d (rc_max_util cfg).
Proof.
  intros w sg a from spender to qs1 q qs2 out w' Hr H Ht Hnw.
  apply submit_tx in H as (G & G' & Hcfg & _ & _ & _ & _ & _ & _ & ls & x1 & ac & chk & t1 & t2 & pos & _ & _ & Hqs & _); [|done].
  apply areqs_app in Hqs as (s1 & l1 & l2 & H1 & H2 & ->).
  assert (good (as_p s1)) as G1 by (eapply areqs_good; [|exact H1]; by apply touch_good). pose proof (areqs_cfg _ _ _ _ _ _ _ H1) as C1.
  inversion H2 as [|s1' q' qs' l3 s2 l4 s3 Hamt Hal Hq Hqs]; subst.
  assert (good (as_p s2)) as G2 by (eapply ptrace_good; [exact G1|by eapply areq_trace]).
  inversion Hq as [L x ac0 chk0 cfg d L1 L2 d2 dl pin pout ac' Hty Hc M1 Hd1 Hfl M2 Hd2 Hu Hp1 Hp2 A1 A2|? ? ? ? ? ? ? ? Ht'|? ? ? ? ? ? ? ? ? ? ? ? ? ? Ht'|? ? ? ? ? ? ? ? ? ? ? ? Ht'|? ? ? ? ? Ht']; subst; try (rewrite Ht in Ht'; discriminate).
  cbn [as_p] in G1, G2.
  exists cfg. destruct (Hu Ht) as (ut & Eu & Hut).
  assert (rd_last_time d2 = w_now w) as Hl2.
  { pose proof (ptrace_one _ _ _ _ M2) as T2. destruct (trace_supply _ _ _ _ _ _ T2 Hd1) as (d2' & Hd2' & _ & Hlt).
    assert (d2' = d2) by (cbn in Hd2; congruence). subst d2'. apply Hlt.
    inversion M1 as [a0 cfg0 d0 d0' E1 E2 E3| | | | |]; subst. cbn in Hd1. rewrite lookup_insert in Hd1. injection Hd1 as <-.
    by apply accrue_last in E3. }
  destruct (areqs_nowithdraw _ _ _ _ _ _ _ (rq_addr q) Hqs d2) as (d3 & Hd3 & _ & B & D & S1 & S2).
  - exact G2.
  - intros q' Hin [Ha Hty']. destruct (Hnw q' Hin Ha) as (? & ? & ?). tauto.
  - exact Hd2.
  - exact Hl2.
  - exists d3. cbn [as_p] in Hd3. split. { destruct C1 as (_ & _ & _ & _ & _ & _ & Hrc & _). cbn [as_p] in Hrc. rewrite Hrc in Hc. exact Hc. }
    split; [exact Hd3|]. pose proof (good_rdok _ _ _ G2 Hd2) as W2. pose proof (good_rdok _ _ _ G' Hd3) as W3.
    apply (util_mono d2 d3); try done.
    destruct (Z.eq_dec (rd_b_supply d2) 0) as [Hz|Hnz].
    + exfalso. clear - Eu Hz W2. unfold utilization, total_liab, total_supply, asset_from_d, asset_from_b in Eu. mon Eu.
      apply fmul_floor_ok in E0 as [-> _]; [|vals; lia]. rewrite Hz in Eu. change (0 * rd_b_rate d2 / SCALAR_9) with 0 in Eu.
      match type of Eu with fdiv_ceil ?l _ _ = _ => destruct (div_zero_err l SCALAR_7) as [Hx|[? Hx]] end; congruence.
    + pose proof (ro_bs d2 W2). apply utilization_spec in Eu as (-> & Hp & _); [|done|lia]. split; [exact Hp|exact Hut].
Qed.

(** ** Positions from one transaction to the next *)
Lemma shares_amount p k u i : good p ->
  getz (get_k k (get_pos p u)) i = match ps_list p !! Z.to_nat i with Some r => if 0 <=? i then shares p k u r else 0 | None => 0 end.
Proof.
  intros G. destruct (get_k k (get_pos p u) !! i) as [v|] eqn:E.
  - pose proof (gd_idx _ G _ _ _ _ E) as Hb. destruct (lookup_lt_is_Some_2 (ps_list p) (Z.to_nat i)) as [r Hi]; [lia|].
    rewrite Hi. destruct (0 <=? i) eqn:?; [|lia]. destruct (cw_idx _ (gd_cfg _ G) _ _ Hi) as (cfg & Hc & Hx).
    unfold shares. rewrite Hc, Hx, Z2Nat.id by lia. done.
  - unfold getz at 1. rewrite E. simpl. destruct (ps_list p !! Z.to_nat i) as [r|] eqn:Hi; [|done].
    destruct (0 <=? i) eqn:?; [|done]. destruct (cw_idx _ (gd_cfg _ G) _ _ Hi) as (cfg & Hc & Hx).
    unfold shares. rewrite Hc, Hx, Z2Nat.id by lia. unfold getz. by rewrite E.
Qed.
Lemma moved_amounts now p ls p' k u i : good p -> ptrace now p ls p' ->
  getz (get_k k (get_pos p' u)) i = getz (get_k k (get_pos p u)) i +
    match ps_list p !! Z.to_nat i with Some r => if 0 <=? i then sumz (contrib k u r) ls else 0 | None => 0 end.
Proof.
  intros G T. pose proof (ptrace_good _ _ _ _ G T) as G'. pose proof (ptrace_cfg _ _ _ _ T) as (_ & _ & _ & _ & _ & Hl & _).
  rewrite !shares_amount by done. rewrite Hl. destruct (ps_list p !! _); [|done]. destruct (0 <=? i); [|done].
  by apply (trace_shares now).
Qed.
Lemma only_emis_contrib u ls k v a : only_emis u ls -> sumz (contrib k v a) ls = 0.
Proof. intros H. apply sumz_zero. intros l Hl. destruct (H l Hl) as (id & n & ->). done. Qed.

(** ** C12: positions are isolated and need authorization *)

(** amount of [u] at index [i] in the liabilities, collateral and supply of pool [a] *)
Definition liab_of (w : World) (a u i : Z) : Z := amount_at (po_liab (positions w a u)) i.
Definition coll_of (w : World) (a u i : Z) : Z := amount_at (po_coll (positions w a u)) i.
Definition sup_of (w : World) (a u i : Z) : Z := amount_at (po_sup (positions w a u)) i.

Theorem C12_isolation : forall w o out w' a u i,
  reachable w -> exec w o = Ok (out, w') -> u ∉ signers o -> u <> ps_backstop (pool w a) ->
  sup_of w' a u i = sup_of w a u i /\
  liab_of w' a u i <= liab_of w a u i /\
  coll_of w' a u i <= coll_of w a u i /\
  (coll_of w' a u i <> coll_of w a u i ->
     exists sg from spender to qs q, o = OPool sg a (PSubmit from spender to qs) /\ q ∈ qs /\ rq_type q = 6 /\ rq_addr q = u) /\
  (liab_of w' a u i <> liab_of w a u i ->
     (exists sg from spender to qs q, o = OPool sg a (PSubmit from spender to qs) /\ q ∈ qs /\ rq_type q = 6 /\ rq_addr q = u) \/
     (exists sg, o = OPool sg a (PBadDebt u))).
Proof.
  intros w o out w' a u i Hr H Hu Hb.
  assert (positions w' a u = positions w a u -> 
    sup_of w' a u i = sup_of w a u i /\ liab_of w' a u i <= liab_of w a u i /\ coll_of w' a u i <= coll_of w a u i /\
    (coll_of w' a u i <> coll_of w a u i ->
      exists sg from spender to qs q, o = OPool sg a (PSubmit from spender to qs) /\ q ∈ qs /\ rq_type q = 6 /\ rq_addr q = u) /\
    (liab_of w' a u i <> liab_of w a u i ->
      (exists sg from spender to qs q, o = OPool sg a (PSubmit from spender to qs) /\ q ∈ qs /\ rq_type q = 6 /\ rq_addr q = u) \/
      (exists sg, o = OPool sg a (PBadDebt u)))) as Hsame.
  { unfold sup_of, liab_of, coll_of. intros ->. split; [done|]. split; [lia|]. split; [lia|]. split; intros Hx; by destruct Hx. }
  pose proof H as H0. apply (exec_pool _ _ _ _ a) in H.
  destruct H as [o out w' H _|sg po out px w' Hsg Hty Hp H Hw' _ _|sg admin salt orc rate mp w' -> Hn _ _ H|t v w' H|q w' H].
  - apply Hsame. unfold positions. by rewrite H.
  - simpl in Hu. clear Hp.
    assert ((exists x1 x2 x3 x4 x5 x6, po = PInit x1 x2 x3 x4 x5 x6) \/ forall x1 x2 x3 x4 x5 x6, po <> PInit x1 x2 x3 x4 x5 x6) as [(x1 & x2 & x3 & x4 & x5 & x6 & ->)|Hni].
    { destruct po; first [right; intros; discriminate | left; eauto 10]. }
    { apply Hsame. unfold positions. rewrite Hw'. simpl in H. unfold on_pool in H. mon H. simpl. unfold p_initialize in E. mon E. done. }
    destruct (tx_good _ _ _ _ _ _ Hr H0) as [Hi G]; [done|].
    pose proof (p_exec_data (ctx w sg) a (mkPX (pool w a) (w_ext w)) po out px G Hty H) as Hd. cbn [px_p] in Hd.
    destruct Hd as [(Hmv & _)|[(r & -> & cfg' & _ & Hps & _)|(_ & _ & _ & Hps & _)]];
      [|apply Hsame; unfold positions; rewrite Hw'; unfold get_pos; by rewrite Hps|apply Hsame; unfold positions; rewrite Hw'; unfold get_pos; by rewrite Hps].
    destruct po; try discriminate Hmv.
    + (* submit *)
      apply submit_tx in H0 as (_ & _ & _ & _ & Hf & _ & _ & _ & _ & ls & x1 & ac & chk & t1 & t2 & pos & _ & _ & Hqs & _); [|done].
      assert (u <> from) as Huf by (intros ->; done).
      pose proof (areqs_trace _ _ _ _ _ _ _ Hqs) as T. cbn [as_p] in T.
      pose proof (touch_good _ from G) as Gt.
      assert (forall k, getz (get_k k (get_pos (touch (pool w a) from) u)) i = getz (get_k k (get_pos (pool w a) u)) i) as Ht.
      { intros k. unfold touch, get_pos. simpl. destruct (decide (from = u)) as [->|]; [done|]. by rewrite lookup_insert_ne. }
      assert (forall k, getz (get_k k (get_pos (pool w' a) u)) i = getz (get_k k (get_pos (pool w a) u)) i +
        match ps_list (pool w a) !! Z.to_nat i with Some r => if 0 <=? i then sumz (contrib k u r) ls else 0 | None => 0 end) as Hm.
      { intros k. rewrite (moved_amounts _ _ _ _ k u i Gt T), Ht. done. }
      assert (forall k r, (k = KSup -> sumz (contrib k u r) ls = 0) /\ sumz (contrib k u r) ls <= 0 /\
        (sumz (contrib k u r) ls <> 0 -> exists q, q ∈ reqs /\ rq_type q = 6 /\ rq_addr q = u)) as Hc.
      { intros k r. eapply areqs_contrib; [exact Hqs|done|exact Hb]. }
      pose proof (Hm KSup) as M1. pose proof (Hm KLiab) as M2. pose proof (Hm KColl) as M3.
      unfold sup_of, liab_of, coll_of, amount_at, positions. unfold getz in M1, M2, M3. simpl in M1, M2, M3. rewrite M1, M2, M3.
      destruct (ps_list (pool w a) !! Z.to_nat i) as [r|]; [|split; [lia|]; split; [lia|]; split; [lia|]; split; intros; lia].
      destruct (0 <=? i); [|split; [lia|]; split; [lia|]; split; [lia|]; split; intros; lia].
      destruct (Hc KSup r) as (S1 & _). destruct (Hc KLiab r) as (_ & S2 & S3). destruct (Hc KColl r) as (_ & S4 & S5).
      rewrite S1 by done. split; [lia|]. split; [lia|]. split; [lia|]. split.
      * intros Hne. destruct S5 as (q & ? & ? & ?); [lia|]. eauto 12.
      * intros Hne. left. destruct S3 as (q & ? & ? & ?); [lia|]. eauto 12.
    + (* bad_debt *)
      simpl in H. rewrite Hi in H. simpl in H. unfold on_pool in H. mon H. cbn [px_p] in Hw'.
      apply bad_debt_sim in E as (Hub & Hcoll & Hliab & T); [|exact G].
      pose proof (fun k => moved_amounts _ _ _ _ k u i G T) as Hm. simpl in Hw'. rewrite <- Hw' in Hm.
      pose proof (Hm KSup) as M1. pose proof (Hm KLiab) as M2. pose proof (Hm KColl) as M3. clear Hm.
      unfold sup_of, liab_of, coll_of, amount_at, positions. unfold getz in M1, M2, M3. simpl in M1, M2, M3. rewrite M1, M2, M3.
      destruct (ps_list (pool w a) !! Z.to_nat i) as [r|] eqn:El; [|split; [lia|]; split; [lia|]; split; [lia|]; split; intros; lia].
      destruct (0 <=? i); [|split; [lia|]; split; [lia|]; split; [lia|]; split; intros; lia].
      rewrite !(bd_contrib _ _ _ _ _ _ _ _ (cw_nodup _ (gd_cfg _ G)) El Hub).
      2,3,4: intros j v Hv; apply (gd_idx _ G user KLiab j v) in Hv; lia.
      rewrite (decide_False (P := u = ps_backstop (pool w a))) by done.
      pose proof (pos_ok_getz _ user KLiab (Z.of_nat (Z.to_nat i)) (gd_pos _ G)) as Hp. simpl in Hp.
      split; [lia|]. destruct (decide (u = user)) as [->|]; split; try lia; split; try lia; split; intros; try lia; eauto.
    + (* claim *)
      simpl in H. rewrite Hi in H. simpl in H. unfold ret_z in H. mon H. cbn [px_p] in Hw'.
      apply claim_sim in E as (_ & es & _ & _ & T & _); [|exact G|by apply forallb_nonneg].
      apply Hsame. cbn [px_p] in T. clear - T Hw'. rewrite <- Hw' in T. unfold positions, get_pos.
      assert (ps_pos (pool w' a) = ps_pos (pool w a)) as ->; [|done].
      clear Hw'. unfold claim_lbls in T. remember (map _ es) as ls eqn:El. revert es El. induction T as [|p l p1 ls p2 M T IH]; intros es El; [done|].
      destruct es as [|e es]; [discriminate|]. injection El as -> ->. rewrite (IH es eq_refl).
      inversion M as [| | |? ? ? ? ? ? ? ? E1 E2 E3| |]; subst. apply p_emissions_emis in E3. by destruct (emis_ecfg _ _ E3) as (_ & _ & ->).
    + (* new liquidation auction *)
      simpl in H. rewrite Hi in H. simpl in H. mon H. cbn [px_p] in Hw'.
      apply create_liq_sim in E as (_ & _ & _ & _ & _ & _ & _ & _ & _ & ls & p1 & He & T & ->); [|exact G|].
      2:{ simpl in Hty. apply in_u64_iff in Hty. lia. }
      apply Hsame. unfold positions. rewrite Hw'. unfold get_pos. simpl.
      assert (ps_pos p1 = ps_pos (pool w a)) as ->; [|done].
      clear - T He. induction T as [|p l p1 ls p2 M T IH]; [done|]. rewrite IH by (intros l' ?; apply He; by right).
      destruct (He l ltac:(left)) as (id & n & ->). inversion M as [| | |? ? ? ? ? ? ? ? E1 E2 E3| |]; subst.
      apply p_emissions_emis in E3. by destruct (emis_ecfg _ _ E3) as (_ & _ & ->).
    + simpl in H. rewrite Hi in H. simpl in H. mon H. cbn [px_p] in Hw'. apply create_bad_debt_auct in E as ->.
      apply Hsame. unfold positions. by rewrite Hw'.
    + simpl in H. rewrite Hi in H. simpl in H. mon H. cbn [px_p] in Hw'. apply create_interest_auct in E as ->.
      apply Hsame. unfold positions. by rewrite Hw'.
  - apply Hsame. unfold positions. assert (pool w (dep_addr admin salt) = fresh_pool) as -> by (unfold pool; by rewrite Hn).
    revert H. generalize (pool w' (dep_addr admin salt)). intros p' H. unfold p_initialize in H. mon H. done.
  - apply Hsame. unfold positions. by rewrite H.
  - apply Hsame. unfold positions. by rewrite H.
Qed.

(** ** C23: bad_debt moves exactly the stranded debt to the backstop *)
Theorem C23_bad_debt_exact : forall w sg a u out w',
  reachable w -> exec w (OPool sg a (PBadDebt u)) = Ok (out, w') ->
  let bs := ps_backstop (pool w a) in
  u <> bs /\ po_liab (positions w a u) <> ∅ /\ po_coll (positions w a u) = ∅ /\
  po_liab (positions w' a u) = ∅ /\
  (forall i, liab_of w' a bs i = liab_of w a bs i + liab_of w a u i) /\
  (forall v i, v <> u -> v <> bs -> liab_of w' a v i = liab_of w a v i) /\
  (forall v i, coll_of w' a v i = coll_of w a v i /\ sup_of w' a v i = sup_of w a v i) /\
  (forall r d, reserve w a r = Some d ->
     exists d', reserve w' a r = Some d' /\ rd_d_supply d' = rd_d_supply d /\ rd_b_supply d' = rd_b_supply d) /\
  w_ext w' = w_ext w.
Proof.
  intros w sg a u out w' Hr H bs. destruct (tx_good _ _ _ _ _ _ Hr H) as [Hi G]; [done|].
  apply exec_opool in H as (_ & _ & _ & px & H & Hp & Hx & _). simpl in H. rewrite Hi in H. simpl in H. unfold on_pool in H. mon H.
  simpl in Hp, Hx. apply bad_debt_sim in E as (Hub & Hcoll & Hliab & T); [|exact G]. rewrite <- Hp in T.
  pose proof (ptrace_good _ _ _ _ G T) as G'. fold bs in Hub, T.
  assert (forall k v i, getz (get_k k (get_pos (pool w' a) v)) i = getz (get_k k (get_pos (pool w a) v)) i +
    match k with KLiab => (if decide (v = bs) then getz (po_liab (get_pos (pool w a) u)) i else 0)
        - (if decide (v = u) then getz (po_liab (get_pos (pool w a) u)) i else 0) | _ => 0 end) as Hm.
  { intros k v i. rewrite (moved_amounts _ _ _ _ k v i G T). f_equal.
    assert (forall i, ~ (0 <= i < Z.of_nat (length (ps_list (pool w a)))) -> getz (po_liab (get_pos (pool w a) u)) i = 0) as Hout.
    { intros j Hj. unfold getz. destruct (po_liab (get_pos (pool w a) u) !! j) eqn:Ej; [|done]. apply (gd_idx _ G u KLiab) in Ej. lia. }
    destruct (ps_list (pool w a) !! Z.to_nat i) as [r|] eqn:El.
    - destruct (0 <=? i) eqn:E0.
      + rewrite sumz_app. rewrite (bd_contrib _ _ _ _ _ _ _ _ (cw_nodup _ (gd_cfg _ G)) El Hub).
        2:{ intros j z Hz. apply (gd_idx _ G u KLiab j z) in Hz. lia. }
        rewrite Z2Nat.id by lia. simpl. destruct k; lia.
      + rewrite Hout by lia. destruct k; try done. destruct (decide _), (decide _); lia.
    - apply lookup_ge_None in El. rewrite Hout by lia. destruct k; try done. destruct (decide _), (decide _); lia. }
  split; [done|]. split; [done|]. split; [done|].
  split.
  { apply map_eq. intros i. rewrite lookup_empty. destruct (po_liab (positions w' a u) !! i) as [v|] eqn:E; [|done].
    pose proof (gd_pos _ G' u KLiab i v E) as Hv. specialize (Hm KLiab u i). simpl in Hm.
    rewrite decide_False in Hm by done. rewrite decide_True in Hm by done.
    unfold positions in E. unfold getz at 1 in Hm. rewrite E in Hm. simpl in Hm. lia. }
  unfold liab_of, coll_of, sup_of, amount_at. unfold positions. unfold getz in Hm.
  split. { intros i. specialize (Hm KLiab bs i). simpl in Hm. rewrite Hm. rewrite decide_True by done. rewrite decide_False by congruence. lia. }
  split. { intros v i H1 H2. specialize (Hm KLiab v i). simpl in Hm. rewrite Hm. rewrite !decide_False by done. lia. }
  split. { intros v i. pose proof (Hm KColl v i) as M1. pose proof (Hm KSup v i) as M2. simpl in M1, M2. lia. }
  split; [|by rewrite Hx].
  intros r d Hd. destruct (trace_supply _ _ _ _ _ _ T Hd) as (d' & Hd' & Hs & _). exists d'. split; [exact Hd'|].
  pose proof (Hs KLiab) as H1. pose proof (Hs KColl) as H2. simpl sup_k in H1, H2. rewrite !sumz_app, !tsup_bd in H1, H2.
  rewrite ?sumz_cons, ?sumz_nil in H1, H2. cbn [tsup] in H1, H2. lia.
Qed.
