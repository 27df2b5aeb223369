(** * How long interest auctions can be filled: C26 *)
From Verif Require Import Base Types Token Emitter Factory Backstop PoolReserve PoolUser PoolHealth
  PoolAuction PoolSubmit PoolEmis PoolAdmin World Facts XMove Spec PoolFrame PoolCfg PoolAccrue PoolTrace PoolInv AuctionFacts
  PoolSim PoolReq PoolHF PoolOps PoolLiq PoolReach PoolTx FrameFacts PropsAdmin BackMoves BackInv PropsBackstop PropsBackstop2
  PropsBackstop5 PropsPool1 PropsPool2 PropsPool3 PropsPool4 PropsPool5 PropsPool6 PropsPool7 PropsPool8.

(** ** After 400 ledgers *)
Lemma share_zero age : 400 <= age -> bid_share age = 0.
Proof. intros H. unfold bid_share. destruct (Z.leb_spec age 200); lia. Qed.

(** a fill of an interest auction succeeds only during the first 400 ledgers *)
Theorem C26_only_for_400_ledgers : forall w sg a from spender to qs out w' q u,
  reachable w -> exec w (OPool sg a (PSubmit from spender to qs)) = Ok (out, w') -> q ∈ qs -> fills 2 u q ->
  exists au, auction w a 2 u = Some au /\ au_block au <= w_seq w < au_block au + 400.
Proof.
  intros w sg a from spender to qs out w' q u Hr H Hq [Hty <-].
  apply submit_tx in H as (G & G' & Hcfg & _ & _ & _ & Hsa & Hta & _ & ls & x1 & ac & chk & t1 & t2 & pos & _ & _ & Hqs & _); [|done].
  apply elem_of_list_split in Hq as (qs1 & qs2 & ->).
  apply areqs_app in Hqs as (s1 & l1 & l2 & H1 & H2 & ->).
  inversion H2 as [|? ? ? l0 s0 l0' ? Ha Hal Hq Hqs]; subst.
  inversion Hq as [? ? ? ? ? ? ? ? ? ? ? ? ? Ht'|? ? ? ? ? ? ? ? Ht'|? ? ? ? ? ? ? ? ? ? ? ? ? ? Ht'|L x ac0 chk0 au tf rem L1 btok bid y1 y2 Hty' Hne Hnb Hau Hs Hbt Hbid Hdo Htr T1|? ? ? ? ? Ht']; subst; try lia.
  pose proof (areqs_auct _ _ _ _ _ _ _ 2 (rq_addr q) H1 ltac:(lia)) as Ha1. cbn [as_p] in Ha1. rewrite Hau in Ha1. symmetry in Ha1.
  apply fold_block in Ha1 as (au0 & Hau0 & Hb). exists au0. split; [exact Hau0|]. rewrite Hb.
  apply scale_filled in Hs as (Hp & Hbl & -> & ->); [|apply as_u64_nonneg]. change (c_seq (ctx w sg)) with (w_seq w) in *.
  split; [done|]. destruct (Z_lt_ge_dec (w_seq w) (au_block au + 400)) as [|Hge]; [done|]. exfalso.
  unfold filled in Hbid. cbn [au_bid] in Hbid. apply lookup_omap_Some in Hbid as (v & Hv & _).
  unfold positive, charged in Hv. rewrite share_zero in Hv by lia. rewrite Z.mul_0_r in Hv. unfold cdiv in Hv. rewrite Z.div_0_l in Hv by lia. done.
Qed.

Lemma reachable_fresh w a : reachable w -> fresh_ok w a.
Proof.
  revert w. apply reach_inv'.
  - intros w (now & seq & t & o & lp & -> & _) _. unfold pool. simpl. rewrite lookup_empty. done.
  - intros w o out w' Hr F E Hi'. destruct (ps_init (pool w a)) eqn:Hi.
    + apply (init_step _ a) with (1 := exec_pool _ _ _ _ a E) in Hi. congruence.
    + destruct (F Hi) as [F1 F2]. by eapply uninit_step.
Qed.
(** auctions of bad debt and of interest belong to the backstop of an initialized pool *)
Lemma reachable_auct w a : reachable w -> forall t u au, 1 <= t <= 2 -> auction w a t u = Some au ->
  ps_init (pool w a) = true /\ u = ps_backstop (pool w a).
Proof.
  revert w. apply (reach_inv' (fun w => forall t u au, 1 <= t <= 2 -> auction w a t u = Some au -> ps_init (pool w a) = true /\ u = ps_backstop (pool w a))).
  - intros w (now & seq & t & o & lp & -> & _) t' u au _ H. unfold auction, pool in H. simpl in H. rewrite lookup_empty in H. simpl in H. rewrite lookup_empty in H. done.
  - intros w o out w' Hr F E t u au Ht H.
    destruct (ps_init (pool w a)) eqn:Hi; swap 1 2.
    { destruct (reachable_fresh w a Hr Hi) as [F1 F2]. destruct (uninit_step _ _ _ _ a E Hi F1 F2) as [U1 _]. unfold auction in H. rewrite U1, lookup_empty in H. done. }
    destruct (C32_admin_settings _ _ _ _ a E Hi) as (_ & _ & _ & Hb & _). rewrite Hb. split. { apply (init_step _ a) with (1 := exec_pool _ _ _ _ a E) in Hi. done. }
    destruct (auct_step _ _ _ _ a t u Hr E ltac:(lia)) as [Hs|[[_ Hs]|[(sg & from & sp & to & qs & -> & Hs)|(_ & au' & Ho & _)]]].
    + rewrite Hs in H. by destruct (F t u au Ht H).
    + congruence.
    + rewrite Hs in H. apply fold_block in H as (au0 & H & _). by destruct (F t u au0 Ht H).
    + destruct Ho as (sg & [[? _]|[(_ & -> & _)|(_ & -> & _)]]); [lia|done|done].
Qed.

(** C26: an interest auction left unfilled for 400 ledgers can never be filled, and no other one
    can be created, until its ledger entry expires *)
Theorem C26_stuck_after_400 : forall w a u au l,
  reachable w -> auction w a 2 u = Some au -> au_block au + 400 <= w_seq w -> OExpireAuction a 2 u ∉ l ->
  let w' := run w l in
  auction w' a 2 u = Some au /\
  (forall sg from spender to qs q, q ∈ qs -> fills 2 u q -> ~ succeeds w' (OPool sg a (PSubmit from spender to qs))) /\
  (forall sg assets, ~ succeeds w' (OPool sg a (PNewInterest assets))).
Proof.
  intros w a u au l Hr Hau Hseq Hl.
  assert (forall l w, reachable w -> auction w a 2 u = Some au -> au_block au + 400 <= w_seq w -> OExpireAuction a 2 u ∉ l ->
    reachable (run w l) /\ auction (run w l) a 2 u = Some au /\ au_block au + 400 <= w_seq (run w l)) as Hrun.
  { clear. induction l as [|o l IH]; intros w Hr Hau Hseq Hl; [done|]. apply not_elem_of_cons in Hl as [Ho Hl]. simpl. unfold step.
    destruct (exec w o) as [[out w']|] eqn:E; [|by apply IH]. apply IH; [by eapply reachable_step| |pose proof (seq_mono _ _ _ _ E); lia|done].
    destruct (auct_step _ _ _ _ a 2 u Hr E ltac:(lia)) as [Hs|[[-> _]|[(sg & from & sp & to & qs & -> & Hs)|(Hn & _)]]]; [by rewrite Hs|done| |congruence].
    rewrite Hs, Hau. assert (forall q, q ∈ qs -> ~ fills 2 u q) as Hno.
    { intros q Hq Hf. destruct (C26_only_for_400_ledgers _ _ _ _ _ _ _ _ _ _ _ Hr E Hq Hf) as (au' & Ha' & Hb). rewrite Hau in Ha'. injection Ha' as <-. lia. }
    clear - Hno. induction qs as [|q qs IH]; [done|]. simpl. unfold after_request at 2.
    destruct ((rq_type q =? 6 + 2) && (rq_addr q =? u)) eqn:Eq.
    { apply andb_true_iff in Eq as [E1%Z.eqb_eq E2%Z.eqb_eq]. exfalso. apply (Hno q); [left|done]. }
    change (2 =? 0) with false. rewrite andb_false_r. cbn [andb]. apply IH. intros q' Hq'. apply Hno. by right. }
  destruct (Hrun l w Hr Hau Hseq Hl) as (Hr' & Hau' & Hseq'). cbv zeta. split; [done|]. split.
  - intros sg from spender to qs q Hq Hf (out & w2 & E).
    destruct (C26_only_for_400_ledgers _ _ _ _ _ _ _ _ _ _ _ Hr' E Hq Hf) as (au' & Ha' & Hb). rewrite Hau' in Ha'. injection Ha' as <-. lia.
  - intros sg assets (out & w2 & E). destruct (reachable_auct _ a Hr' 2 u au ltac:(lia) Hau') as [Hi Hu].
    set (w' := run w l) in *. clearbody w'. unfold exec in E. mon1 E. apply bind_ok in E as (p & Ep & E).
    destruct (w_pools w' !! a) as [p0|] eqn:Ep'; [|discriminate]. injection Ep as ->.
    assert (pool w' a = p) as Hp by (unfold pool; by rewrite Ep'). unfold auction in Hau'. rewrite Hp in *.
    unfold p_exec in E. cbn [px_p px_x] in E. rewrite Hi in E. cbn in E. unfold create_interest in E.
    unfold has_auction in E. rewrite <- Hu, Hau' in E. rewrite bool_decide_true in E by done. discriminate.
Qed.

(** ** During the first 400 ledgers *)
Lemma fmul_ceil_fits x y d : 0 <= x * y <= i128_max -> 0 < d -> exists v, fmul_ceil x y d = Ok v /\ v = cdiv (x * y) d.
Proof.
  intros H Hd. assert (exists v, fmul_ceil x y d = Ok v) as [v Hv]; [|exists v; split; [done|by apply fmul_ceil_ok in Hv as [-> _]]].
  unfold fmul_ceil. rewrite i128_fits by (unfold i128_min; lia). cbn [bind]. unfold div_ceil.
  rewrite (proj2 (Z.eqb_neq d 0)) by lia. rewrite Z.quot_div_nonneg by lia. rewrite Z.abs_eq by lia.
  pose proof (Z.div_mod (x * y) d ltac:(lia)) as Hdm. pose proof (Z.mod_pos_bound (x * y) d Hd).
  pose proof (Z.div_pos (x * y) d ltac:(lia) Hd).
  destruct (_ || _); [|destruct (Z.ltb_spec 0 ((x * y) mod d))]; rewrite i128_fits; eauto;
    assert (x * y / d <= d * (x * y / d)) by nia; unfold i128_min; lia.
Qed.
Lemma foldM_total {A S} (f : S -> A -> res S) l : (forall s e, e ∈ l -> exists s', f s e = Ok s') -> forall s, exists s', foldM f s l = Ok s'.
Proof.
  induction l as [|e l IH]; intros H s; [by eexists|]. cbn [foldM]. destruct (H s e ltac:(left)) as [s1 ->]. cbn [bind]. apply IH. intros s2 e2 He. apply H. by right.
Qed.
Lemma part_fits up v m : 0 <= v -> v * 10000000 <= i128_max -> 0 <= m <= 10000000 ->
  exists r, (if up : bool then fmul_ceil else fmul_floor) v m SCALAR_7 = Ok r /\ 0 <= r <= v.
Proof.
  intros H1 H2 H3. change SCALAR_7 with 10000000. assert (0 <= v * m <= v * 10000000) as Hm by nia. destruct up.
  - destruct (fmul_ceil_fits v m 10000000 ltac:(lia) ltac:(lia)) as (r & -> & ->). eexists. split; [done|]. unfold cdiv.
    pose proof (Z.div_mod (- (v * m)) 10000000 ltac:(lia)). pose proof (Z.mod_pos_bound (- (v * m)) 10000000 ltac:(lia)). nia.
  - rewrite fmul_floor_fits by lia. eexists. split; [done|]. split; [apply Z.div_pos; lia|]. apply Z.div_le_upper_bound; lia.
Qed.
Lemma scale_one_total up pct md s e : 0 <= snd e -> snd e * 10000000 <= i128_max -> 0 <= pct <= 10000000 -> 0 <= md <= 10000000 ->
  exists s', scale_one up pct md s e = Ok s'.
Proof.
  intros H1 H2 H3 H4. unfold scale_one. destruct s as [fm rem]. destruct (part_fits up (snd e) pct H1 H2 H3) as (b & -> & Hb). cbn [bind].
  rewrite i128_fits by (unfold i128_min, i128_max in *; lia). cbn [bind].
  destruct (part_fits up b md ltac:(lia) ltac:(lia) H4) as (r & -> & Hr). cbn [bind]. eauto.
Qed.
(** scaling succeeds when the amounts leave room for the seven decimals *)
Definition room (au : Auction) : Prop :=
  forall k v, au_bid au !! k = Some v \/ au_lot au !! k = Some v -> 0 <= v /\ v * 10000000 <= i128_max.
Lemma scale_total seq au pct : 1 <= pct <= 100 -> au_block au <= seq -> seq <= u32_max -> 0 <= au_block au -> room au ->
  scale_auction seq au pct = Ok (filled au pct (seq - au_block au), remainder au pct).
Proof.
  intros Hp Hb Hs H0 Hroom.
  assert (exists tf rem, scale_auction seq au pct = Ok (tf, rem)) as (tf & rem & E).
  { unfold scale_auction. rewrite (proj2 (Z.ltb_ge 100 pct)), (proj2 (Z.eqb_neq pct 0)) by lia. cbn [orb negb].
    unfold u32. rewrite (proj2 (in_u32_iff (seq - au_block au))) by lia. cbn [bind]. rewrite modifiers_spec by lia.
    rewrite i128_fits by (unfold i128_min, i128_max; lia). cbn [bind].
    destruct (foldM_total (scale_one true (pct * 100000) (bid_share (seq - au_block au))) (entries (au_bid au))) with (s := (∅, ∅) : gmap Addr Z * gmap Addr Z) as [[fb rb] ->].
    { intros s [k v] He. apply elem_of_entries in He. destruct (Hroom k v ltac:(by left)). apply scale_one_total; simpl; try lia. unfold bid_share. destruct (Z.leb_spec (seq - au_block au) 200); lia. }
    cbn [bind].
    destruct (foldM_total (scale_one false (pct * 100000) (lot_share (seq - au_block au))) (entries (au_lot au))) with (s := (∅, ∅) : gmap Addr Z * gmap Addr Z) as [[fl rl] ->].
    { intros s [k v] He. apply elem_of_entries in He. destruct (Hroom k v ltac:(by right)). apply scale_one_total; simpl; try lia. unfold lot_share. lia. }
    cbn [bind]. eauto. }
  rewrite E. apply scale_filled in E as (_ & _ & -> & ->); [done|lia].
Qed.

(** the interest of reserve [r] can be computed *)
Definition accruable (w : World) (a r : Addr) : Prop :=
  exists cfg d d', ps_rcfg (pool w a) !! r = Some cfg /\ reserve w a r = Some d /\ accrue (w_now w) (take_rate w a) cfg d = Ok d'.
(** the lot [m] can be paid out by pool [a] to [filler] *)
Definition payable (w : World) (a filler : Addr) (m : gmap Addr Z) : Prop :=
  forall r n, m !! r = Some n -> accruable w a r /\ n <= credit_now w a r <= i128_max /\
    n <= held w r a /\ held w r filler + n <= i128_max.

Lemma load_res_total w a r : reachable w -> accruable w a r ->
  exists res, load_res (w_now w) (ps_config (pool w a)) (pool w a) r = Ok res /\ r_asset res = r /\ rd_credit (r_data res) = credit_now w a r.
Proof.
  intros Hr (cfg & d & d' & Hc & Hd & Ha). unfold reserve in Hd. unfold load_res, credit_now, data_at. rewrite Hc, Hd. cbn [unwrap bind].
  pose proof (cw_valid _ (reachable_cfg_wf _ a Hr) _ _ Hc) as V.
  unfold pow10. rewrite i128_fits; swap 1 2.
  { destruct V as [V _]. pose proof (Z.pow_le_mono_r 10 (rc_decimals cfg) 18 ltac:(lia) ltac:(lia)). pose proof (Z.pow_nonneg 10 (rc_decimals cfg)).
    unfold i128_min, i128_max. lia. }
  cbn [bind]. unfold take_rate in Ha. rewrite Ha. cbn [bind]. eexists. split; [done|]. done.
Qed.

(** the loop that pays out the lot *)
Lemma pay_total w a filler sg l : forall ch x, reachable w -> a <> filler -> NoDup l.*1 ->
  ch_cfg ch = ps_config (pool w a) ->
  (forall r n, (r, n) ∈ l -> ch_res ch !! r = None) ->
  (forall r, r ∈ ch_store ch -> is_Some (ch_res ch !! r)) ->
  (forall r n, (r, n) ∈ l -> 0 <= n /\ accruable w a r /\ n <= credit_now w a r <= i128_max /\ n <= balance (x_tok x) r a /\ 0 <= balance (x_tok x) r filler /\ balance (x_tok x) r filler + n <= i128_max) ->
  exists ch' x', foldM (interest_fill_one (ctx w sg) a filler (pool w a)) (ch, x) l = Ok (ch', x') /\
    (forall r, r ∈ ch_store ch' -> is_Some (ch_res ch' !! r)).
Proof.
  induction l as [|[r n] l IH]; intros ch x Hr Hne Hnd Hcf Hnone Hst Hpay; [by exists ch, x|].
  apply NoDup_cons in Hnd as [Hnin Hnd]. destruct (Hpay r n ltac:(left)) as (Hn & Hac & Hcr & Hb1 & Hb2 & Hb3).
  destruct (load_res_total w a r Hr Hac) as (res & Hl & Ha & Hc).
  cbn [foldM]. unfold interest_fill_one at 1. cbn [fst snd]. unfold load_reserve. change (c_now (ctx w sg)) with (w_now w).
  set (ch0 := if true && _ then _ else _).
  assert (ch_res ch0 = ch_res ch /\ ch_cfg ch0 = ch_cfg ch /\ forall q, q ∈ ch_store ch0 -> q = r \/ q ∈ ch_store ch) as (C1 & C2 & C3).
  { unfold ch0. destruct (true && _); [|by auto]. split; [done|]. split; [done|]. simpl. intros q Hq. apply elem_of_app in Hq as [?|Hq]; [auto|]. apply elem_of_list_singleton in Hq. auto. }
  rewrite C1, (Hnone r n ltac:(left)), C2, Hcf, Hl. cbn [bind].
  rewrite i128_fits by (rewrite Hc; unfold i128_min; lia). cbn [bind].
  unfold transfer, need_auth, as_contract. cbn [c_auth ctx]. 
  rewrite Z.eqb_refl, orb_true_r. cbn [bind]. unfold tok_move.
  rewrite (proj2 (Z.leb_le 0 n)) by lia. rewrite (proj2 (Z.leb_le n _)) by lia.
  rewrite i128_fits; [cbn [bind]|].
  2: { rewrite balance_set_balance, bool_decide_false by (intros [_ ?]; congruence). unfold i128_min. lia. }
  apply IH; try done.
  - simpl. congruence.
  - intros q m Hq. simpl. rewrite lookup_insert_ne, C1; [apply (Hnone q m); by right|]. simpl. rewrite Ha. intros <-. apply Hnin. apply elem_of_list_fmap. by exists (r, m).
  - simpl. intros q Hq. rewrite Ha. destruct (decide (q = r)) as [->|Hqr]; [rewrite lookup_insert; eauto|]. rewrite lookup_insert_ne, C1 by done. apply Hst.
    destruct (C3 q Hq); [done|done].
  - intros q m Hq. assert (q <> r) as Hqr. { intros ->. apply Hnin. apply elem_of_list_fmap. by exists (r, m). }
    destruct (Hpay q m ltac:(by right)) as (P1 & P2 & P3 & P4 & P5 & P6). simpl. rewrite !balance_set_balance.
    rewrite !(bool_decide_false (r = q /\ _)) by (intros [? _]; congruence). done.
Qed.

Lemma store_total ch l : (forall r, r ∈ l -> is_Some (ch_res ch !! r)) -> forall p,
  exists p', foldM (fun p a => let? r := unwrap_or (ch_res ch !! a) (PoolE 1209) in Ok (store_res p r)) p l = Ok p'.
Proof.
  intros H. apply foldM_total. intros s r Hr. destruct (H r Hr) as [x ->]. cbn. eauto.
Qed.

Lemma donate_total w sg a filler n : reachable w -> filler ∈ sg -> filler <> a -> filler <> bs_addr -> bs_init (x_bs (w_ext w)) = true -> 0 <= n ->
  n <= held w (backstop_token w) filler ->
  pb_shares (pool_bal w a) <> 0 \/ (bs_factory (x_bs (w_ext w)) = fac_addr /\ a ∈ fa_deployed (x_fac (w_ext w))) ->
  held w (backstop_token w) bs_addr + n <= i128_max -> backstop_tokens w a + n <= i128_max ->
  exists x', b_donate (as_contract (ctx w sg) a) (w_ext w) filler a n = Ok x'.
Proof.
  intros Hr Hsg H1 H2 Hbi Hn Hh Hk F1 F2. unfold b_donate, need_auth, as_contract. cbn [c_auth ctx].
  assert (mem_addr filler sg = true) as Hm by (by apply mem_addr_in).
  rewrite Hm, Z.eqb_refl, orb_true_r. cbn [orb bind]. unfold b_nonneg. rewrite (proj2 (Z.ltb_ge n 0)) by lia. cbn [bind].
  rewrite (proj2 (Z.eqb_neq filler a)), (proj2 (Z.eqb_neq filler bs_addr)) by done. cbn [orb negb]. rewrite Hbi.
  assert (require_pool (w_ext w) a (pb_shares (get_pb (w_ext w) a)) = Ok tt) as ->.
  { unfold require_pool. destruct (Z.eqb_spec (pb_shares (get_pb (w_ext w) a)) 0) as [E|E]; [|done]. destruct Hk as [Hk|[Hk1 Hk2]]; [done|].
    rewrite Hk1, Z.eqb_refl. unfold fa_is_pool. by rewrite bool_decide_true. }
  cbn [bind]. unfold transfer, need_auth. cbn [c_auth]. rewrite Hm. cbn [orb bind]. unfold tok_move. unfold held, backstop_token in *.
  rewrite (proj2 (Z.leb_le 0 n)), (proj2 (Z.leb_le n _)) by lia.
  pose proof (reachable_tok_nonneg w Hr (bs_token (x_bs (w_ext w))) bs_addr) as Hnn.
  rewrite i128_fits; [cbn [bind]|].
  2: { rewrite balance_set_balance, bool_decide_false by (intros [_ ?]; congruence). unfold i128_min. lia. }
  unfold pb_deposit. destruct (binv_pool _ _ a (reachable_binv w Hr)) as [B1 B2]. destruct (reachable_fit w Hr a) as [B3 _].
  change (get_pb (w_ext w)) with (get_pb (w_ext w)). unfold backstop_tokens in F2.
  rewrite i128_fits by (unfold i128_min; lia). cbn [bind]. rewrite i128_fits by (unfold i128_min; lia). cbn [bind]. eauto.
Qed.

(** C26: during its first 400 ledgers, from the one after its creation on, anybody who holds the
    backstop tokens can fill any percentage of an interest auction *)
Theorem C26_fill_possible : forall w sg a filler to u n au,
  reachable w -> filler ∈ sg -> forallb ok_signer sg = true -> to <> a ->
  ps_backstop (pool w a) = bs_addr -> bs_init (x_bs (w_ext w)) = true ->
  auction w a 2 u = Some au -> au_block au <= w_seq w < au_block au + 400 -> 1 <= n <= 100 ->
  0 <= au_block au -> w_seq w <= u32_max -> room au ->
  0 < amount_at (au_bid au) (backstop_token w) ->
  let f := filled au n (w_seq w - au_block au) in
  let bid := amount_at (au_bid f) (backstop_token w) in
  bid <= held w (backstop_token w) filler ->
  (* the backstop knows the pool *)
  pb_shares (pool_bal w a) <> 0 \/ (bs_factory (x_bs (w_ext w)) = fac_addr /\ a ∈ fa_deployed (x_fac (w_ext w))) ->
  held w (backstop_token w) bs_addr + bid <= i128_max -> backstop_tokens w a + bid <= i128_max ->
  payable w a filler (au_lot f) ->
  succeeds w (OPool sg a (PSubmit filler filler to [mkReq 8 u n])).
Proof.
  intros w sg a filler to u n au Hr Hsg Hok Hto Hbs Hbi Hau Hage Hn Hb0 Hs32 Hroom Hbid f bid Hheld Hknown Hfit1 Hfit2 Hpay.
  destruct (reachable_auct _ a Hr 2 u au ltac:(lia) Hau) as [Hi Hu]. rewrite Hbs in Hu. subst u.
  assert (w_pools w !! a = Some (pool w a)) as Hp.
  { unfold pool in *. destruct (w_pools w !! a); [done|]. discriminate Hi. }
  pose proof (pools_neg _ Hr _ _ Hp) as Hneg.
  assert (3 < filler) as Hf3. { eapply forallb_forall in Hok; [|by apply elem_of_list_In]. unfold ok_signer in Hok. by apply Z.ltb_lt. }
  assert (au_bid f !! backstop_token w = Some bid /\ 0 < bid) as [Hlb Hbpos].
  { unfold bid, amount_at, f, filled. cbn [au_bid]. rewrite lookup_omap. unfold amount_at in Hbid. destruct (au_bid au !! backstop_token w) as [v|]; [|simpl in Hbid; lia].
    simpl in Hbid. cbn [mbind option_bind]. unfold positive. assert (0 < charged v n (w_seq w - au_block au)) as Hc; [|by rewrite (proj2 (Z.ltb_lt _ _) Hc)].
    unfold charged, bid_part. assert (0 < bid_share (w_seq w - au_block au)) as Hsh. { unfold bid_share. destruct (Z.leb_spec (w_seq w - au_block au) 200); lia. }
    assert (0 < cdiv (v * n) 100) as Hc1. { unfold cdiv. pose proof (Z.div_mod (- (v * n)) 100 ltac:(lia)). pose proof (Z.mod_pos_bound (- (v * n)) 100 ltac:(lia)). nia. }
    set (k := cdiv (v * n) 100) in *. clearbody k. unfold cdiv. pose proof (Z.div_mod (- (k * bid_share (w_seq w - au_block au))) 10000000 ltac:(lia)).
    pose proof (Z.mod_pos_bound (- (k * bid_share (w_seq w - au_block au))) 10000000 ltac:(lia)). nia. }
  unfold succeeds, exec. rewrite Hok, Hp. assert (ty_pop (PSubmit filler filler to [mkReq 8 bs_addr n]) = true) as ->.
  { simpl. rewrite andb_true_r. apply in_i128_iff. unfold i128_min, i128_max. lia. }
  cbn [andb unwrap bind]. unfold p_exec. cbn [px_p px_x]. rewrite Hi. cbn [negb].
  unfold p_submit. rewrite (auth_of _ _ _ Hsg). cbn [bind]. rewrite Z.eqb_refl. cbn [bind px_p px_x].
  rewrite (proj2 (Z.eqb_neq filler a)), (proj2 (Z.eqb_neq to a)) by lia. cbn [orb negb].
  unfold build_actions. cbn [foldM]. unfold do_request. cbn [rq_amt rq_type]. unfold p_nonneg. rewrite (proj2 (Z.ltb_ge n 0)) by lia. cbn [bind].
  assert (forall ch, require_action ch 8 = Ok tt) as ->. { intros ch. unfold require_action. change (8 =? 4) with false. change (8 =? 9) with false. change (8 =? 2) with false. change (8 =? 0) with false. cbn [orb]. by rewrite !andb_false_r. }
  cbn [bind]. unfold do_fill. cbn [lo_p lo_x lo_ch lo_pos rq_addr rq_amt lo_check lo_ac]. unfold fill.
  rewrite (proj2 (Z.eqb_neq bs_addr filler)) by (unfold bs_addr; lia). cbn [negb].
  unfold auction in Hau. rewrite Hau. cbn [unwrap bind].
  assert (as_u64 n = n) as ->. { unfold as_u64. apply Z.mod_small. lia. }
  change (c_seq (ctx w sg)) with (w_seq w). rewrite scale_total by (done || lia). fold f. cbn [bind].
  change (2 =? 0) with false. change (2 =? 1) with false. change (2 =? 2) with true. cbn iota.
  unfold fill_interest. rewrite Hbs. rewrite (proj2 (Z.eqb_neq filler bs_addr)) by (unfold bs_addr; lia). cbn [negb].
  unfold call_backstop_token, to_backstop. rewrite Hbs, Z.eqb_refl, Hbi. cbn [bind]. fold (backstop_token w). rewrite Hlb. cbn [unwrap bind].
  destruct (donate_total w sg a filler bid Hr Hsg ltac:(lia) ltac:(unfold bs_addr; lia) Hbi ltac:(lia) Hheld Hknown Hfit1 Hfit2) as [x1 Ex]. rewrite Ex. cbn [bind].
  apply donate_spec in Ex as (_ & _ & _ & _ & _ & _ & Hbal).
  destruct (pay_total w a filler sg (entries (au_lot f)) (pool_load (pool w a)) x1 Hr ltac:(lia) (entries_fst_NoDup _) eq_refl) as (ch' & x2 & E & Hst).
  { intros r v _. apply lookup_empty. }
  { intros r Hx. by apply elem_of_nil in Hx. }
  { intros r v Hv. apply elem_of_entries in Hv. destruct (Hpay r v Hv) as (P1 & P2 & P3 & P4). unfold held in *.
    assert (0 <= v) as Hv0. { unfold f, filled in Hv. cbn [au_lot] in Hv. apply lookup_omap_Some in Hv as (v0 & Hv & _). unfold positive in Hv.
      destruct (Z.ltb_spec 0 (handed v0 n (w_seq w - au_block au))); [|discriminate]. injection Hv as <-. lia. }
    split; [done|]. split; [done|]. split; [done|]. rewrite !Hbal.
    rewrite (bool_decide_false (_ /\ filler = a)) by (intros [_ ?]; lia). rewrite (bool_decide_false (_ /\ bs_addr = a)) by (unfold bs_addr; intros [_ ?]; lia).
    rewrite (bool_decide_false (_ /\ bs_addr = filler)) by (unfold bs_addr; intros [_ ?]; lia).
    pose proof (reachable_tok_nonneg w Hr r filler) as Hnn. split; [lia|]. case_bool_decide as Hbb; [|lia]. destruct Hbb as [<- _]. unfold backstop_token in *. lia. }
  rewrite E. cbn [bind]. unfold require_under_max. cbn [lo_pos]. rewrite Z.ltb_irrefl. cbn [andb bind]. unfold check_hf. cbn [lo_check orb andb bind lo_ch lo_ac lo_p lo_x].
  unfold transfer_all, no_actions. cbn [ac_spender ac_pool]. rewrite entries_empty. cbn [foldM bind].
  unfold store_cached. destruct (store_total ch' (ch_store ch') Hst (match remainder au n with Some a0 => set_auction (pool w a) 2 bs_addr a0 | None => del_auction (pool w a) 2 bs_addr end)) as [p' Ep].
  rewrite Ep. cbn [bind]. eauto.
Qed.
