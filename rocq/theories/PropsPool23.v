(** * Bad debt auctions can be filled while the backstop holds the lot: C66 *)
From Verif Require Import Base Types Token Emitter Factory Backstop PoolReserve PoolUser PoolHealth
  PoolAuction PoolSubmit PoolEmis PoolAdmin World Facts XMove Spec PoolFrame PoolCfg PoolAccrue PoolTrace PoolInv AuctionFacts
  PoolSim PoolReq PoolHF PoolOps PoolLiq PoolReach PoolTx PoolEmisInv FrameFacts PropsAdmin BackMoves BackInv PropsBackstop PropsBackstop5 PropsPool1 PropsPool2 PropsPool3
  PropsPool4 PropsPool5 PropsPool6 PropsPool7 PropsPool9 PropsPool10 PoolLive PropsPool13 PropsPool14 PropsPool15 PropsPool16 PropsPool20 PropsPool21 PropsPool22.

(** ** Specification *)
(** positions [pos] after taking over the debts of [f] *)
Definition owing (w : World) (a : Addr) (f : Auction) (pos : Positions) : Positions :=
  pos <| po_liab := credited w a (au_bid f) (po_liab pos) |>.
(** the backstop can value the tokens of pool [a] *)
Definition backstop_valued (w : World) (a : Addr) : Prop :=
  exists vb vu, bs_lpval (x_bs (w_ext w)) = Some (vb, vu) /\ 0 <= vb /\ 0 <= vu /\
    backstop_tokens w a * vb <= i128_max /\ backstop_tokens w a * vu <= i128_max /\ pb_q4w (pool_bal w a) * 10000000 <= i128_max.

(** ** The backstop *)
Lemma tokens_held w a : reachable w -> bs_init (x_bs (w_ext w)) = true -> bs_token (x_bs (w_ext w)) <> bs_blnd (x_bs (w_ext w)) ->
  backstop_tokens w a <= lp_held w.
Proof.
  intros Hr Hi Hne. pose proof (reachable_binv w Hr) as Hb. pose proof (C37_deposits_backed w Hr Hi Hne) as Hbk. assert (backstop_tokens w a <= recorded_tokens w); [|lia].
  unfold recorded_tokens, backstop_tokens, get_pb. destruct (bs_pool (x_bs (w_ext w)) !! a) as [b|] eqn:Ep; simpl; swap 1 2.
  - apply sumz_nonneg. intros [q b] Hin. apply elem_of_map_to_list in Hin. destruct (binv_pool _ _ q Hb) as [_ Hx]. unfold get_pb in Hx. rewrite Hin in Hx. exact Hx.
  - apply elem_of_map_to_list, elem_of_list_split in Ep as (m1 & m2 & Em). rewrite Em, sumz_app, sumz_cons. simpl.
    assert (forall m, (forall e, e ∈ m -> e ∈ map_to_list (bs_pool (x_bs (w_ext w)))) -> 0 <= sumz (fun e : Addr * PoolBal => pb_tokens (snd e)) m) as Hpos.
    { intros m Hm. apply sumz_nonneg. intros [q b'] Hin. apply Hm, elem_of_map_to_list in Hin. destruct (binv_pool _ _ q Hb) as [_ Hx]. unfold get_pb in Hx. rewrite Hin in Hx. exact Hx. }
    pose proof (Hpos m1 ltac:(intros; rewrite Em; set_solver)). pose proof (Hpos m2 ltac:(intros; rewrite Em; set_solver)). lia.
Qed.
Lemma draw_total w sg a n to : reachable w -> bs_init (x_bs (w_ext w)) = true -> bs_token (x_bs (w_ext w)) <> bs_blnd (x_bs (w_ext w)) ->
  0 <= n <= backstop_tokens w a -> held w (backstop_token w) to + n <= i128_max ->
  exists x', b_draw (as_contract (ctx w sg) a) (w_ext w) a n to = Ok x'.
Proof.
  intros Hr Hi Hne Hn Hfit. pose proof (tokens_held w a Hr Hi Hne) as Hh. destruct (binv_pool _ _ a (reachable_binv w Hr)) as [B1 B2]. pose proof (reachable_fit w Hr a) as [F1 F2].
  unfold b_draw, need_auth, as_contract. cbn [c_auth ctx]. rewrite Z.eqb_refl, orb_true_r. cbn [bind]. unfold b_nonneg. rewrite (proj2 (Z.ltb_ge n 0)) by lia. cbn [bind].
  unfold pb_withdraw, backstop_tokens in *. rewrite !(proj2 (Z.ltb_ge _ _)) by lia. cbn [negb orb bind].
  rewrite !i128_fits by (unfold i128_min; lia). cbn [bind]. change (bs_init (x_bs (set_pb _ _ _))) with (bs_init (x_bs (w_ext w))). rewrite Hi.
  unfold transfer, need_auth. cbn [c_auth]. rewrite Z.eqb_refl, orb_true_r. cbn [bind]. unfold tok_move. unfold lp_held, held, backstop_token in *.
  change (x_tok (set_pb _ _ _)) with (x_tok (w_ext w)). change (bs_token (x_bs (set_pb _ _ _))) with (bs_token (x_bs (w_ext w))).
  rewrite (proj2 (Z.leb_le 0 n)), (proj2 (Z.leb_le n _)) by lia.
  pose proof (reachable_tok_nonneg w Hr (bs_token (x_bs (w_ext w))) bs_addr). pose proof (reachable_tok_nonneg w Hr (bs_token (x_bs (w_ext w))) to).
  rewrite i128_fits; [cbn [bind]; eauto|]. rewrite balance_set_balance. unfold i128_min. case_bool_decide as Hbb; [destruct Hbb as [_ <-]; lia|lia].
Qed.
Lemma data_total x a : 0 <= pb_q4w (get_pb x a) <= pb_shares (get_pb x a) -> 0 <= pb_tokens (get_pb x a) ->
  (exists vb vu, bs_lpval (x_bs x) = Some (vb, vu) /\ 0 <= vb /\ 0 <= vu /\ pb_tokens (get_pb x a) * vb <= i128_max /\ pb_tokens (get_pb x a) * vu <= i128_max /\
    pb_q4w (get_pb x a) * 10000000 <= i128_max) -> exists d, pool_data x a = Ok d.
Proof.
  intros H1 H2 (vb & vu & Hv & V1 & V2 & F1 & F2 & F3). unfold pool_data. rewrite Hv. cbn [unwrap].
  assert (exists q, (if 0 <? pb_shares (get_pb x a) then fdiv_ceil (pb_q4w (get_pb x a)) (pb_shares (get_pb x a)) SCALAR_7 else Ok 0) = Ok q) as [q ->].
  { destruct (Z.ltb_spec 0 (pb_shares (get_pb x a))); [|by exists 0]. unfold SCALAR_7. rewrite fdiv_ceil_fits by lia. eauto. }
  cbn [bind fst snd]. unfold SCALAR_7. rewrite !fmul_floor_fits by nia. cbn [bind]. eauto.
Qed.
Lemma log_burns_same self ch m x : x_orc (log_burns self ch m x) = x_orc x /\ x_tok (log_burns self ch m x) = x_tok x.
Proof. unfold log_burns. induction (entries m) as [|e l IH]; [done|]. exact IH. Qed.

Lemma burn_map_total (p : PoolSt) liab : cfg_wf p -> (forall i v, liab !! i = Some v -> 0 <= i < Z.of_nat (length (ps_list p))) ->
  exists m, burn_map (ps_list p) liab = Ok m /\ forall r v, m !! r = Some v -> exists cfg, ps_rcfg p !! r = Some cfg /\ liab !! rc_index cfg = Some v.
Proof.
  intros Hwf Hin. unfold burn_map.
  assert (forall es (m0 : gmap Addr Z), (forall i v, (i, v) ∈ es -> liab !! i = Some v) ->
    (forall r v, m0 !! r = Some v -> exists cfg, ps_rcfg p !! r = Some cfg /\ liab !! rc_index cfg = Some v) ->
    exists m : gmap Addr Z, foldM (fun m e => let? a := list_get (ps_list p) (fst e) in Ok (<[a := snd e]> m)) m0 es = Ok m /\
      forall r v, m !! r = Some v -> exists cfg, ps_rcfg p !! r = Some cfg /\ liab !! rc_index cfg = Some v) as H.
  { induction es as [|[i v] es IH]; intros m0 Hes Hm0; [by exists m0|]. cbn [foldM fst snd].
    pose proof (Hes i v ltac:(left)) as Hi. pose proof (Hin i v Hi) as Hb. destruct (lookup_lt_is_Some_2 (ps_list p) (Z.to_nat i) ltac:(lia)) as [r Hlr].
    rewrite (list_get_total _ _ _ Hlr) by lia. cbn [bind]. apply IH; [intros; apply Hes; by right|]. intros s u Hs. destruct (decide (s = r)) as [->|Hne].
    - rewrite lookup_insert in Hs. injection Hs as <-. destruct (cw_idx _ Hwf _ _ Hlr) as (cfg & Hc & Hci). exists cfg. split; [done|]. rewrite Hci, Z2Nat.id by lia. done.
    - rewrite lookup_insert_ne in Hs by done. by apply Hm0. }
  destruct (H (entries liab) ∅) as (m & E & Hm).
  { intros i v. apply elem_of_entries. }
  { intros r v Hv. by rewrite lookup_empty in Hv. }
  by exists m.
Qed.
Lemma debited_lookup w a l : forall b j v, NoDup l.*1 -> (forall r s n m, (r, n) ∈ l -> (s, m) ∈ l -> index_of w a r = index_of w a s -> r = s) ->
  debited w a b l !! j = Some v ->
  (b !! j = Some v /\ forall r n, (r, n) ∈ l -> index_of w a r <> j) \/ (exists r n, (r, n) ∈ l /\ index_of w a r = j /\ v = amount_at b j - n /\ v <> 0).
Proof.
  induction l as [|[r n] l IH]; intros b j v Hnd Hinj Hv.
  { left. split; [done|]. intros r n Hx. by apply elem_of_nil in Hx. }
  apply NoDup_cons in Hnd as [Hni Hnd]. cbn [fst] in Hni. unfold debited in Hv. cbn [foldl fst snd] in Hv. fold (debited w a (put b (index_of w a r) (amount_at b (index_of w a r) - n)) l) in Hv.
  destruct (IH _ _ _ Hnd ltac:(intros; eapply Hinj; (by right) || done) Hv) as [[H1 H2]|(s & m & H1 & H2 & H3 & H4)].
  - destruct (decide (index_of w a r = j)) as [Hj|Hj].
    + right. exists r, n. split; [left|]. split; [done|]. unfold put in H1. rewrite Hj in H1. destruct (Z.eqb_spec (amount_at b j - n) 0) as [E|E].
      * by rewrite lookup_delete in H1.
      * rewrite lookup_insert in H1. injection H1 as <-. done.
    + left. split. { unfold put in H1. destruct (_ =? 0); [by rewrite lookup_delete_ne in H1|by rewrite lookup_insert_ne in H1]. }
      intros s m Hs. apply elem_of_cons in Hs as [[= -> ->]|Hs]; [done|by eapply H2].
  - right. exists s, m. split; [by right|]. split; [done|]. pose proof (not_in_rest r s n m l Hni H1) as Hsr.
    assert (index_of w a r <> j) as Hj. { intros Hj. apply Hsr. symmetry. eapply (Hinj r s n m); [left|by right|congruence]. }
    split; [|done]. rewrite H3. f_equal. match goal with |- amount_at ?M _ = _ => transitivity (getz M j); [done|] end. rewrite getz_put, decide_False by done. done.
Qed.

(** ** C66 *)
(** anybody can fill any percentage of a bad debt auction, from its first ledger on and for ever, if the
    backstop still owes the debts that are taken over, the pool's backstop holds the tokens that are paid
    for that, and the filler is healthy with the debts *)
Theorem C66_fill_possible : forall w sg a filler to n au dec,
  reachable w -> filler ∈ sg -> forallb ok_signer sg = true -> to <> a ->
  ps_backstop (pool w a) = bs_addr -> bs_init (x_bs (w_ext w)) = true -> bs_token (x_bs (w_ext w)) <> bs_blnd (x_bs (w_ext w)) ->
  auction w a 1 bs_addr = Some au -> au_block au <= w_seq w -> 1 <= n <= 100 ->
  let f := filled au n (w_seq w - au_block au) in
  let lot := amount_at (au_lot f) (backstop_token w) in
  let pos := positions w a filler in
  let pos' := owing w a f pos in
  0 < lot <= backstop_tokens w a ->
  (forall r v, au_bid f !! r = Some v -> v <= owed (account w a bs_addr) r) ->
  healthy w a dec pos' -> position_count pos' <= pc_max_positions (ps_config (pool w a)) \/ position_count pos' <= position_count pos ->
  (* all assets can be valued, interest and emissions can be computed and 32-bit and 128-bit integers suffice *)
  all_valued w a dec pos' -> 0 <= au_block au -> w_seq w <= u32_max -> room au ->
  backstop_valued w a -> held w (backstop_token w) filler + lot <= i128_max ->
  (forall r, owed (account w a bs_addr) r <> 0 -> accruable w a r /\
     emis_fits (w_now w) (pool w a) bs_addr (index_of w a r * 2) /\ emis_fits (w_now w) (pool w a) filler (index_of w a r * 2) /\
     (forall d, reserve w a r = Some d -> rd_d_supply d <= i128_max)) ->
  succeeds w (OPool sg a (PSubmit filler filler to [mkReq 7 bs_addr n])).
Proof.
  intros w sg a filler to n au dec Hr Hsg Hok Hto Hbs Hbi Hblnd Hau Hage Hn f lot pos pos' Hlot Hbid Hhf Hcnt Hval Hb0 Hs32 Hroom Hbv Hfl Hfit.
  assert (ps_init (pool w a) = true) as Hi.
  { destruct (ps_init (pool w a)) eqn:E; [done|]. destruct (reachable_fresh w a Hr E) as [F1 _]. unfold auction in Hau. rewrite F1, lookup_empty in Hau. done. }
  pose proof (reachable_good w a Hr Hi) as G.
  assert (filler <> bs_addr) as Hne.
  { assert (3 < filler) as Hf3; [|unfold bs_addr; lia]. eapply forallb_forall in Hok; [|by apply elem_of_list_In]. unfold ok_signer in Hok. by apply Z.ltb_lt. }
  assert (forall r v, au_bid f !! r = Some v -> 0 < v) as Hpv by (intros r v ?; eapply filled_pos; by right).
  set (p := pool w a) in *.
  assert (forall y r, owed (account w a y) r = amount_at (po_liab (get_pos p y)) (index_of w a r)) as Howed by (intros; done).
  (* what each asset the backstop owes satisfies *)
  assert (forall r, owed (account w a bs_addr) r <> 0 -> accruable w a r /\
    (forall d, reserve w a r = Some d -> 0 < rd_d_supply d <= i128_max /\ owed (account w a bs_addr) r + owed (account w a filler) r <= rd_d_supply d) /\
    0 <= owed (account w a bs_addr) r /\ 0 <= owed (account w a filler) r /\
    (forall y, owed (account w a y) r = tok_bal p y (index_of w a r * 2)) /\
    emis_fits (w_now w) p bs_addr (index_of w a r * 2) /\ emis_fits (w_now w) p filler (index_of w a r * 2)) as HB.
  { intros r Ho. destruct (Hfit r Ho) as (Hac & He1 & He2 & Hsup).
    pose proof Hac as (cfg & d & d' & Hc & Hd & _). fold p in Hc. pose proof (idx_of w a r cfg Hc) as Hix. specialize (Hsup d Hd).
    assert (forall y, tok_bal p y (index_of w a r * 2) = owed (account w a y) r) as Hbal.
    { intros y. destruct (tok_of_tid p KLiab r cfg d y G Hc Hd) as (_ & _ & Hb & _). cbn [tid ebal] in Hb. rewrite Howed, Hix, Hb. done. }
    destruct (tok_of_tid p KLiab r cfg d bs_addr G Hc Hd) as (_ & Ha & _ & Hsu & _). cbn [tid sup_k] in *. rewrite <- Hix in *.
    pose proof (tok_list p (index_of w a r * 2) [bs_addr; filler] G ltac:(rewrite Ha; eauto)) as Ht. rewrite !sumz_cons, sumz_nil, Hsu, !Hbal in Ht.
    assert (NoDup [bs_addr; filler]) as Hn2. { apply NoDup_cons. split; [|apply NoDup_singleton]. intros Hxx. apply elem_of_list_singleton in Hxx. by subst. }
    specialize (Ht Hn2). pose proof (pos_ok_getz p bs_addr KLiab (index_of w a r) (gd_pos _ G)) as N1. pose proof (pos_ok_getz p filler KLiab (index_of w a r) (gd_pos _ G)) as N3.
    cbn [get_k] in N1, N3. unfold getz in N1, N3. rewrite !Howed in *. unfold amount_at in *.
    split; [done|]. split; [intros d2 Hd2; assert (d2 = d) as -> by congruence; lia|]. split; [done|]. split; [done|]. split; [by intros y; rewrite Hbal|]. done. }
  assert (forall r v, au_bid f !! r = Some v -> owed (account w a bs_addr) r <> 0) as Hnz. { intros r v Hv. specialize (Hbid r v Hv). specialize (Hpv r v Hv). lia. }
  (* the debts move *)
  destruct (remove_liab_total w a Hr G bs_addr (entries (au_bid f)) _ _ _ _ p (pool_load p) (get_pos p bs_addr) (mid_start w a) (entries_fst_NoDup _)) as (q1 & ch1 & E1 & M1).
  { intros r v Hv. apply elem_of_entries in Hv. destruct (HB r (Hnz r v Hv)) as (A1 & A2 & A3 & A4 & A5 & A6 & A7). specialize (Hbid r v Hv). specialize (Hpv r v Hv).
    pose proof A1 as (cfg & d & d' & _ & Hd & _). specialize (A2 d Hd). fold (owed (account w a bs_addr) r). rewrite <- Howed. split; [done|]. split; [done|]. split; [lia|].
    split; [intros d2 Hd2; assert (d2 = d) as -> by congruence; lia|]. right. split; [intros []|]. split; [done|]. apply A5. }
  destruct (add_liab_total w a Hr G filler (entries (au_bid f)) _ _ _ _ q1 ch1 pos M1 (entries_fst_NoDup _)) as (q2 & ch2 & E2 & M2).
  { intros r v Hv. rewrite (shift_in _ _ _ r v (entries_fst_NoDup _) Hv). apply elem_of_entries in Hv. destruct (HB r (Hnz r v Hv)) as (A1 & A2 & A3 & A4 & A5 & A6 & A7). specialize (Hbid r v Hv). specialize (Hpv r v Hv).
    pose proof A1 as (cfg & d & d' & _ & Hd & _). specialize (A2 d Hd). change pos with (get_pos p filler). rewrite <- Howed.
    split; [constructor; [done|done|by rewrite Z.add_0_r|intros d2 Hd2; assert (d2 = d) as -> by congruence; lia]|]. split; [intros [[]|[? _]]; done|]. split; [lia|]. split; [done|]. split; [lia|]. apply A5. }
  fold (credited w a (au_bid f) (po_liab pos)) in E2. fold (owing w a f pos) in E2. fold pos' in E2.
  (* the lot is drawn *)
  destruct (draw_total w sg a lot filler Hr Hbi Hblnd ltac:(lia) Hfl) as [x1 Ex].
  pose proof (draw_spec _ _ _ _ _ _ Ex) as (_ & Hpb & _ & Hlpv & _ & Horc & _).
  destruct (data_total x1 a) as [pd Epd].
  { rewrite Hpb. simpl. apply (binv_pool _ _ a (reachable_binv w Hr)). }
  { rewrite Hpb. simpl. unfold backstop_tokens in Hlot. lia. }
  { destruct Hbv as (vb & vu & V1 & V2 & V3 & V4 & V5 & V6). exists vb, vu. rewrite Hlpv. split; [done|]. split; [done|]. split; [done|]. rewrite Hpb. simpl. unfold backstop_tokens in *. unfold pool_bal in V6. fold (get_pb (w_ext w) a) in V6. nia. }
  set (bpos := get_pos p bs_addr <| po_liab := debited w a (po_liab (get_pos p bs_addr)) (entries (au_bid f)) |>) in *.
  (* and what is left may be burned *)
  assert (forall j v, po_liab bpos !! j = Some v -> exists r cfg, ps_rcfg p !! r = Some cfg /\ rc_index cfg = j /\ 0 < v <= owed (account w a bs_addr) r /\
    ((exists n, (r, n) ∈ entries (au_bid f)) \/ v = owed (account w a bs_addr) r)) as Hleft.
  { intros j v Hv. destruct (debited_lookup w a (entries (au_bid f)) (po_liab (get_pos p bs_addr)) j v (entries_fst_NoDup _)) as [[H1 H2]|(r & m & H1 & H2 & H3 & H4)]; [|exact Hv|..].
    - intros r s n1 m1 H1 H2. apply elem_of_entries in H1, H2. destruct (HB r (Hnz _ _ H1)) as ((c1 & ? & ? & K1 & _) & _). destruct (HB s (Hnz _ _ H2)) as ((c2 & ? & ? & K2 & _) & _).
      rewrite (idx_of w a r c1 K1), (idx_of w a s c2 K2). by apply (idx_inj w a G).
    - pose proof (gd_idx _ G bs_addr KLiab j v H1) as Hjb. pose proof (gd_pos _ G bs_addr KLiab j v H1) as Hv0.
      destruct (lookup_lt_is_Some_2 (ps_list p) (Z.to_nat j) ltac:(lia)) as [r Hlr]. destruct (cw_idx _ (gd_cfg _ G) _ _ Hlr) as (cfg & Hc & Hci).
      assert (rc_index cfg = j) as Hcj by lia. exists r, cfg. split; [done|]. split; [done|]. rewrite Howed, (idx_of w a r cfg Hc), Hcj. unfold amount_at. rewrite H1. simpl. split; [lia|]. by right.
    - pose proof H1 as H1'. apply elem_of_entries in H1. destruct (HB r (Hnz _ _ H1)) as ((c1 & ? & ? & K1 & _) & _). exists r, c1. split; [done|]. split; [by rewrite <- (idx_of w a r c1 K1)|].
      specialize (Hbid r m H1). specialize (Hpv r m H1). rewrite Howed in *. rewrite H2 in *. split; [lia|]. left. eauto. }
  set (dd2 := shift 1 (entries (au_bid f)) (shift (-1) (entries (au_bid f)) (fun _ => 0))) in *.
  assert (forall r, dd2 r = 0) as Hdd.
  { intros r. unfold dd2. destruct (au_bid f !! r) as [v|] eqn:Hv.
    - apply elem_of_entries in Hv. rewrite !(shift_in _ _ _ r v (entries_fst_NoDup _) Hv). lia.
    - assert (r ∉ (entries (au_bid f)).*1) as Hx. { intros Hx. apply elem_of_list_fmap in Hx as ([r' v] & -> & Hx). apply elem_of_entries in Hx. cbn [fst] in Hv. rewrite Hv in Hx. discriminate. }
      by rewrite !shift_notin. }
  destruct (burn_map_total p (po_liab bpos) (gd_cfg _ G)) as (m & Em & Hm).
  { intros i v Hv. destruct (Hleft i v Hv) as (r & cfg & Hc & <- & _). apply (good_index_bound p r cfg (gd_cfg p G) Hc). }
  destruct (remove_liab_total w a Hr G bs_addr (entries m) _ _ _ _ q2 ch2 bpos M2 (entries_fst_NoDup _)) as (q3 & ch3 & E3 & M3).
  { intros r v Hv. apply elem_of_entries in Hv. destruct (Hm r v Hv) as (cfg & Hc & Hv'). destruct (Hleft _ _ Hv') as (r2 & cfg2 & Hc2 & Hi2 & Hv2 & Hor).
    assert (r2 = r) as -> by (by eapply (idx_inj w a G)). assert (cfg2 = cfg) as -> by congruence. destruct (HB r ltac:(lia)) as (A1 & A2 & A3 & A4 & A5 & A6 & A7).
    pose proof A1 as (cfg3 & d & d' & _ & Hd & _). specialize (A2 d Hd). assert (amount_at (po_liab bpos) (index_of w a r) = v) as Hamt. { rewrite (idx_of w a r cfg Hc). unfold amount_at. by rewrite Hv'. }
    split; [done|]. split; [lia|]. rewrite Hamt. split; [lia|]. split; [intros d2 Hd2; assert (d2 = d) as -> by congruence; rewrite Hdd; lia|].
    destruct (au_bid f !! r) as [v0|] eqn:Hv0.
    - left. left. right. split; [done|]. apply elem_of_list_fmap. exists (r, v0). split; [done|]. by apply elem_of_entries.
    - right. split.
      { intros [[[]|[_ Hx]]|[? _]]; [|congruence]. apply elem_of_list_fmap in Hx as ([r' v1] & -> & Hx). apply elem_of_entries in Hx. cbn [fst] in Hv0. rewrite Hv0 in Hx. discriminate. }
      split; [done|]. rewrite <- A5. destruct Hor as [[n1 Hn1]|?]; [|done]. apply elem_of_entries in Hn1. congruence. }
  assert (forall k j, 0 <= getz (get_k k pos') j) as Hpos.
  { intros k j. pose proof (fun j => pos_ok_getz p filler k j (gd_pos _ G)) as Hk. destruct k; unfold pos', owing; cbn [get_k]; simpl; first [exact (Hk j)|apply credit_nonneg; [|exact Hk]];
      intros r v Hv; apply elem_of_entries in Hv; by apply (Hpv r v). }
  (* the whole fill *)
  assert (exists q ch bp x2 db dd Tb Td, fill_bad_debt (ctx w sg) a p (w_ext w) (pool_load p) f filler pos = Ok ((set_pos q bs_addr bp, ch, pos'), x2) /\
    mid w a db dd Tb Td q ch /\ x_orc x2 = x_orc (w_ext w)) as (q & ch & bp & x2 & db & dd & Tb & Td & Efill & M & Hx2).
  { unfold fill_bad_debt, rm_positions, add_positions. fold p in Hbs. rewrite Hbs, (proj2 (Z.eqb_neq filler bs_addr)) by done. cbn [negb]. rewrite entries_empty. cbn [foldM bind].
    change (c_now (ctx w sg)) with (w_now w). rewrite E1. cbn [bind]. rewrite E2. cbn [bind].
    assert (ps_backstop q2 = bs_addr /\ ps_list q2 = ps_list p) as [Q1 Q2].
    { split; [|apply M2]. rewrite <- Hbs.
      assert (foldM (pos_step remove_collateral (w_now w) bs_addr) (p, pool_load p, get_pos p bs_addr) (entries ∅) = Ok (p, pool_load p, get_pos p bs_addr)) as Z0 by done.
      pose proof (rm_positions_emis (w_now w) bs_addr (p, pool_load p, get_pos p bs_addr) ∅ (au_bid f) (q1, ch1, bpos)) as S1. unfold rm_positions in S1. rewrite Z0 in S1. cbn [bind] in S1. specialize (S1 E1).
      pose proof (add_positions_emis (w_now w) filler (q1, ch1, pos) ∅ (au_bid f) (q2, ch2, pos')) as S2. unfold add_positions in S2. rewrite entries_empty in S2. cbn [foldM bind] in S2. specialize (S2 E2).
      apply emis_cfg in S1, S2. simpl in S1, S2. destruct S1 as (_ & _ & S1 & _), S2 as (_ & _ & S2 & _). by rewrite S2, S1. }
    unfold call_backstop_token, to_backstop. rewrite Q1, Z.eqb_refl, Hbi. cbn [bind].
    assert (au_lot f !! bs_token (x_bs (w_ext w)) = Some lot) as ->.
    { unfold lot, amount_at, backstop_token in *. destruct (au_lot f !! _); [done|]. simpl in Hlot. lia. }
    cbn [unwrap bind]. rewrite Ex. cbn [bind]. case_bool_decide as Hem.
    { do 8 eexists. split; [reflexivity|]. split; [exact M2|done]. }
    unfold call_pool_data, to_backstop. rewrite Q1, Z.eqb_refl, Epd. cbn [bind]. destruct (threshold pd <? 3).
    - rewrite Q2, Em. cbn [bind]. rewrite E3. cbn [bind]. do 8 eexists. split; [reflexivity|]. split; [exact M3|]. by rewrite (proj1 (log_burns_same _ _ _ _)).
    - do 8 eexists. split; [reflexivity|]. split; [exact M2|done]. }
  set (rem := remainder au n).
  set (p5 := match rem with Some a0 => set_auction (set_pos q bs_addr bp) 1 bs_addr a0 | None => del_auction (set_pos q bs_addr bp) 1 bs_addr end).
  assert (do_request (ctx w sg) a filler (loop0 w a filler) (mkReq 7 bs_addr n) = Ok (mkLoop p5 x2 ch pos' no_actions true)) as Hdo.
  { unfold do_request. cbn [rq_amt rq_type]. unfold p_nonneg. rewrite (proj2 (Z.ltb_ge n 0)) by lia. cbn [bind].
    unfold require_action. simpl (_ =? _). cbn [orb]. rewrite !andb_false_r. cbn [orb bind].
    unfold do_fill. cbn [lo_p lo_x lo_ch lo_pos rq_addr rq_amt lo_check lo_ac loop0]. unfold PoolAuction.fill.
    rewrite (proj2 (Z.eqb_neq bs_addr filler)) by congruence. cbn [negb]. unfold auction in Hau. fold p in Hau |- *. rewrite Hau. cbn [unwrap bind].
    assert (as_u64 n = n) as ->. { unfold as_u64. apply Z.mod_small. lia. }
    change (c_seq (ctx w sg)) with (w_seq w). rewrite scale_total by (done || lia). fold f rem. cbn [bind]. change (1 =? 0) with false. change (1 =? 1) with true. cbn iota.
    change (get_pos p filler) with pos. rewrite Efill. cbn [bind]. done. }
  destruct (check_many w a sg p5 ch no_actions pos' dec x2 Hr Hi Hval Hpos Hhf) as (ch5 & Hch & Hst); [|..|exact Hx2| |].
  { unfold p5. destruct rem; simpl; apply M. }
  { eapply mid_alike; [exact M|..]; unfold p5; destruct rem; done. }
  { apply M. }
  eapply (submit_checked w sg a filler to _ _ ch5 (x_tok x2) (x_tok x2) Hr Hsg Hok Hto Hi); [done| |exact Hdo|exact Hch| |exact Hst| | ].
  - simpl. unfold i128_max. lia.
  - cbn [lo_pos lo_ch]. destruct (md_c _ _ _ _ _ _ _ _ M) as [-> _]. destruct Hcnt as [Hcnt|Hcnt]; [right|left]; exact Hcnt.
  - done.
  - done.
Qed.

(** conversely, the backstop must still owe what the filler takes over, and hold what is paid for it;
    in particular the filler of a new auction, whose lot is still empty, is refused *)
Theorem C66_fill_needs : forall w sg a filler spender to u n out w',
  reachable w -> exec w (OPool sg a (PSubmit filler spender to [mkReq 7 u n])) = Ok (out, w') ->
  exists au, auction w a 1 u = Some au /\ filler <> u /\ filler <> ps_backstop (pool w a) /\ au_block au <= w_seq w /\ 1 <= n mod 2 ^ 64 <= 100 /\
    let f := filled au (n mod 2 ^ 64) (w_seq w - au_block au) in
    0 < amount_at (au_lot f) (backstop_token w) <= backstop_tokens w a /\
    (forall r v, au_bid f !! r = Some v -> v <= owed (account w a (ps_backstop (pool w a))) r).
Proof.
  intros w sg a filler spender to u n out w' Hr H.
  pose proof (C24_fill _ _ _ _ _ _ _ _ _ _ Hr H) as (au & lot & Hau & Hm). cbv zeta in Hm. destruct Hm as (Hlot & Hle & _ & _ & _ & burned & _ & Hacc & _ & Hbu).
  destruct (fill_facts w sg a filler spender to 1 u n out w' Hr ltac:(lia) H) as (Hne & Hp & Hb).
  pose proof (submit_tx _ _ _ _ _ _ _ _ _ Hr H) as (_ & G' & _).
  exists au. split; [done|]. split; [done|].
  assert (filler <> ps_backstop (pool w a)) as Hfb.
  { by destruct (reachable_auct w a Hr 1 u au ltac:(lia) Hau) as [_ <-]. }
  cbv zeta. specialize (Hb _ Hau). split; [done|]. split; [lia|]. split; [done|]. split; [lia|].
  intros r v Hv. destruct (Hacc (ps_backstop (pool w a)) r) as (A1 & _). rewrite Z.eqb_refl, (proj2 (Z.eqb_neq _ filler)) in A1 by congruence.
  assert (0 <= owed (account w' a (ps_backstop (pool w a))) r) as N1 by apply (pos_ok_getz (pool w' a) (ps_backstop (pool w a)) KLiab (index_of w' a r) (gd_pos _ G')).
  assert (amount_at (au_bid (filled au (n mod 2 ^ 64) (w_seq w - au_block au))) r = v) as Hv' by (unfold amount_at; by rewrite Hv).
  rewrite Hv' in A1. specialize (Hbu r). lia.
Qed.

(** so the auction is stuck while the pool's backstop is empty, *)
Theorem C66_no_tokens_no_fill : forall w sg a filler spender to u n,
  reachable w -> backstop_tokens w a = 0 -> ~ succeeds w (OPool sg a (PSubmit filler spender to [mkReq 7 u n])).
Proof.
  intros w sg a filler spender to u n Hr H0 (out & w' & H). destruct (C66_fill_needs _ _ _ _ _ _ _ _ _ _ Hr H) as (au & _ & _ & _ & _ & _ & Hl & _). lia.
Qed.
(** and, for its first 400 ledgers, when the backstop no longer owes one of the auctioned debts, as after a
    partial fill that burns what is left *)
Theorem C66_no_debt_no_fill : forall w sg a filler spender to u n au r,
  reachable w -> auction w a 1 u = Some au -> 0 < amount_at (au_bid au) r -> owed (account w a u) r = 0 -> w_seq w - au_block au < 400 ->
  ~ succeeds w (OPool sg a (PSubmit filler spender to [mkReq 7 u n])).
Proof.
  intros w sg a filler spender to u n au r Hr Hau Hb Ho Hage (out & w' & H). destruct (C66_fill_needs _ _ _ _ _ _ _ _ _ _ Hr H) as (au' & Hau' & _ & _ & Hbl & Hp & _ & Hbid).
  rewrite Hau in Hau'. injection Hau' as <-. destruct (reachable_auct w a Hr 1 u au ltac:(lia) Hau) as [_ Hu]. rewrite <- Hu in Hbid.
  set (f := filled au _ _) in *. pose proof (filled_bid au (n mod 2 ^ 64) (w_seq w - au_block au) r) as Hf. fold f in Hf.
  assert (0 < amount_at (au_bid f) r) as Hpos.
  { rewrite Hf. unfold pays. assert (0 < bid_share (w_seq w - au_block au)). { unfold bid_share. repeat (case_match || lia). }
    pose proof (cdiv_pos (amount_at (au_bid au) r * (n mod 2 ^ 64)) 100 ltac:(lia) ltac:(nia)) as C1.
    pose proof (cdiv_pos (cdiv (amount_at (au_bid au) r * (n mod 2 ^ 64)) 100 * bid_share (w_seq w - au_block au)) 10000000 ltac:(lia) ltac:(nia)). lia. }
  unfold amount_at in Hpos. destruct (au_bid f !! r) as [v|] eqn:Hv; [|done]. simpl in Hpos. specialize (Hbid r v Hv). lia.
Qed.
