(** * Bad debt and interest auctions: C24, C25 *)
From Verif Require Import Base Types Token Emitter Factory Backstop PoolReserve PoolUser PoolHealth
  PoolAuction PoolSubmit PoolEmis PoolAdmin World Facts XMove Spec PoolFrame PoolCfg PoolAccrue PoolTrace PoolInv AuctionFacts
  PoolSim PoolReq PoolHF PoolOps PoolLiq PoolReach PoolTx FrameFacts PropsAdmin BackMoves BackInv PropsBackstop2
  PropsPool1 PropsPool2 PropsPool3 PropsPool4 PropsPool5.

(** ** Observers *)

(** the backstop tokens recorded for the pool at [a], and the backstop's token *)
Definition backstop_tokens (w : World) (a : Addr) : Z := pb_tokens (get_pb (w_ext w) a).
Definition backstop_token (w : World) : Addr := bs_token (x_bs (w_ext w)).
(** the product constant of the pool's backstop is below 0.0000003 of the threshold,
    that is below about 5% of the required deposit (0.05 ^ 5 = 0.0000003125) *)
Definition below_5_percent (w : World) (a : Addr) : Prop :=
  exists vb vu, bs_lpval (x_bs (w_ext w)) = Some (vb, vu) /\
    exact_product (backstop_tokens w a * vb / 10000000) (backstop_tokens w a * vu / 10000000) * 10000000 < 3 * THRESHOLD.

(** ** Lemmas *)
Lemma threshold_below d : threshold d < 3 <-> exact_product (pd_blnd d) (pd_usdc d) * 10000000 < 3 * THRESHOLD.
Proof.
  unfold threshold, exact_product, THRESHOLD.
  set (bl := Z.quot (pd_blnd d) SCALAR_7). set (us := Z.quot (pd_usdc d) SCALAR_7).
  change (pd_blnd d ÷ 10000000) with bl. change (pd_usdc d ÷ 10000000) with us. clearbody bl us.
  destruct (Z_lt_le_dec us 0) as [Hu|Hu].
  - pose proof (product_neg bl us Hu) as [H1 H2]. set (s := sat_mul _ us) in *. clearbody s. rewrite sat_clamp.
    assert (clamp (s * SCALAR_7) <= 0).
    { unfold clamp. assert (s * SCALAR_7 <= 0) by (vals; nia). repeat case_match; vals; lia. }
    split; [lia|]. intros _.
    assert (clamp (s * SCALAR_7) ÷ 320000000000000000000000000 <= 0); [|lia].
    rewrite <- (Z.quot_0_l 320000000000000000000000000) by lia. apply Z.quot_le_mono; lia.
  - rewrite product_clamp by done. assert (0 <= bl ^ 4 * us) by nia.
    set (e := bl ^ 4 * us) in *. clearbody e.
    rewrite sat_clamp, clamp_nonneg by (vals; lia). unfold clamp.
    assert (0 <= e * SCALAR_7) by (vals; lia).
    destruct (i128_max <? e * SCALAR_7) eqn:E1.
    + vals. split; [|lia]. intros Hx. exfalso. vm_compute in Hx. discriminate.
    + replace (e * SCALAR_7 <? i128_min) with false by (symmetry; apply Z.ltb_ge; vals; lia).
      rewrite Z.quot_div_nonneg by lia. vals.
      pose proof (div_le_iff (e * 10000000) 320000000000000000000000000 3 ltac:(lia)) as Hd. lia.
Qed.
Lemma pool_data_fields x a d : pool_data x a = Ok d ->
  pd_tokens d = pb_tokens (get_pb x a) /\ exists vb vu, bs_lpval (x_bs x) = Some (vb, vu) /\
    pd_blnd d = pb_tokens (get_pb x a) * vb / 10000000 /\ pd_usdc d = pb_tokens (get_pb x a) * vu / 10000000.
Proof.
  unfold pool_data. intros H. mon H. split; [done|]. destruct (bs_lpval _) as [[vb vu]|]; [|discriminate]. injection E0 as <-.
  exists vb, vu. split; [done|]. simpl. apply fmul_floor_ok in E1 as [-> _]; [|vals; lia]. apply fmul_floor_ok in E2 as [-> _]; [|vals; lia]. done.
Qed.
Lemma draw_spec c x p n to x' : b_draw c x p n to = Ok x' ->
  0 <= n <= pb_tokens (get_pb x p) /\
  get_pb x' p = mkPoolBal (pb_shares (get_pb x p)) (pb_tokens (get_pb x p) - n) (pb_q4w (get_pb x p)) /\
  (forall q, q <> p -> get_pb x' q = get_pb x q) /\
  bs_lpval (x_bs x') = bs_lpval (x_bs x) /\ bs_token (x_bs x') = bs_token (x_bs x) /\ x_orc x' = x_orc x /\
  (forall tok v, balance (x_tok x') tok v = balance (x_tok x) tok v
     - (if bool_decide (bs_token (x_bs x) = tok /\ bs_addr = v) then n else 0) + (if bool_decide (bs_token (x_bs x) = tok /\ to = v) then n else 0)).
Proof.
  unfold b_draw. intros H. mon H. match goal with E : pb_withdraw _ _ _ = Ok _ |- _ => apply pb_withdraw_ok in E as (-> & P1 & P2 & P3) end.
  unfold b_nonneg in *. mon E0. unfold transfer in *. match goal with E : (let? _ := need_auth _ _ in _) = Ok _ |- _ => mon E end. match goal with E : tok_move _ _ _ _ _ = Ok _ |- _ => apply tok_move_spec in E as (_ & _ & _ & Hb & _) end.
  split; [lia|]. unfold get_pb. simpl. split; [rewrite lookup_insert; simpl; f_equal; lia|].
  split; [intros q Hq; by rewrite lookup_insert_ne|]. split; [done|]. split; [done|]. split; [done|]. intros tok v. rewrite Hb. done.
Qed.
Lemma donate_spec c x f p n x' : b_donate c x f p n = Ok x' ->
  0 <= n /\ get_pb x' p = mkPoolBal (pb_shares (get_pb x p)) (pb_tokens (get_pb x p) + n) (pb_q4w (get_pb x p)) /\
  (forall q, q <> p -> get_pb x' q = get_pb x q) /\
  bs_lpval (x_bs x') = bs_lpval (x_bs x) /\ bs_token (x_bs x') = bs_token (x_bs x) /\ x_orc x' = x_orc x /\
  (forall tok v, balance (x_tok x') tok v = balance (x_tok x) tok v
     - (if bool_decide (bs_token (x_bs x) = tok /\ f = v) then n else 0) + (if bool_decide (bs_token (x_bs x) = tok /\ bs_addr = v) then n else 0)).
Proof.
  intros H. pose proof (C39_donate _ _ _ _ _ _ H) as (_ & _ & Hn & Hg & Hq). split; [done|]. split; [done|]. split; [done|].
  unfold b_donate in H. mon H. unfold transfer in *. match goal with E : (let? _ := need_auth _ _ in _) = Ok _ |- _ => mon E end. match goal with E : tok_move _ _ _ _ _ = Ok _ |- _ => apply tok_move_spec in E as (_ & _ & _ & Hb & _) end.
  split; [done|]. split; [done|]. split; [done|]. intros tok v. simpl. rewrite Hb. done.
Qed.
Lemma burn_shares p u m r : good p -> burn_map (ps_list p) (po_liab (get_pos p u)) = Ok m -> getz m r = shares p KLiab u r.
Proof.
  intros G H. unfold getz at 1. rewrite (burn_map_full _ _ _ (cw_nodup _ (gd_cfg _ G)) H r). unfold shares.
  destruct (list_find (eq r) (ps_list p)) as [[i b]|] eqn:Ef.
  - apply list_find_Some in Ef as (Hi & <- & _). destruct (cw_idx _ (gd_cfg _ G) _ _ Hi) as (cfg & -> & ->). done.
  - destruct (ps_rcfg p !! r) as [cfg|] eqn:Hc; [|done]. exfalso. apply (cw_list _ (gd_cfg _ G)) in Hc.
    apply list_find_None in Ef. rewrite Forall_forall in Ef. by apply (Ef r).
Qed.
Lemma bad_debt_bid c p x es : forall s s', Forall (fun e : Z * Z => 0 < e.2) es -> foldM (bad_debt_one c p x) s es = Ok s' ->
  foldM (fun m e => let? a := list_get (ps_list p) (fst e) in Ok (<[a := snd e]> m)) s.1.2 es = Ok s'.1.2.
Proof.
  induction es as [|e es IH]; simpl; intros s s' Hp H; [by injection H as <-|].
  apply Forall_cons in Hp as [He Hp]. apply bind_ok in H as (s1 & E & H). destruct s as [[dv bid] ch]. unfold bad_debt_one in E.
  apply bind_ok in E as (a & Ea & E). rewrite (proj2 (Z.ltb_lt 0 _) He) in E. rewrite Ea. simpl.
  apply bind_ok in E as ([r ch1] & _ & E). apply bind_ok in E as ([pr ch2] & _ & E). mon E. by apply IH in H.
Qed.

(** ** C24: bad debt auctions *)

(** opening one offers at most the pool's backstop tokens for all of the backstop's debt *)
Theorem C24_creation : forall w sg a out w',
  reachable w -> exec w (OPool sg a PNewBadDebt) = Ok (out, w') ->
  let bs := ps_backstop (pool w a) in
  exists au lot, out = OutAuction au /\ auction w a 1 bs = None /\ auction w' a 1 bs = Some au /\ au_block au = w_seq w + 1 /\
    (forall r, amount_at (au_bid au) r = owed (account w a bs) r) /\
    au_lot au = {[ backstop_token w := lot ]} /\ lot <= backstop_tokens w a /\
    (forall v, same_acc (account w' a v) (account w a v)) /\ (forall tok v, held w' tok v = held w tok v) /\
    backstop_tokens w' a = backstop_tokens w a.
Proof.
  intros w sg a out w' Hr H. cbv zeta. destruct (tx_good _ _ _ _ _ _ Hr H) as [Hi G]; [done|].
  apply exec_opool in H as (_ & _ & _ & px & H & Hp' & Hx' & _). simpl in H. rewrite Hi in H. simpl in H.
  apply bind_ok in H as ([au p1] & E & H). injection H as <- <-. simpl in Hp', Hx'.
  pose proof (create_bad_debt_new _ _ _ _ _ _ E) as [Hno Hb]. pose proof (create_bad_debt_auct _ _ _ _ _ _ E) as ->.
  unfold create_bad_debt in E. apply assert_ok in E as [_ E]. apply bind_ok in E as (blk & _ & E).
  apply bind_ok in E as ([dec ch] & _ & E). apply bind_ok in E as (osc & _ & E). apply bind_ok in E as ([[dv bid] ch1] & Ef & E).
  apply assert_ok in E as [_ E]. apply bind_ok in E as (btok & Et & E). apply bind_ok in E as (pd & Ep & E).
  apply bind_ok in E as (tv & _ & E). apply bind_ok in E as (l0 & _ & E). apply bind_ok in E as (l1 & _ & E).
  injection E as E _. unfold call_backstop_token, to_backstop in Et. destruct (ps_backstop (pool w a) =? bs_addr) eqn:Ebs; [|discriminate].
  destruct (bs_init (x_bs (w_ext w))); [|discriminate]. injection Et as <-.
  unfold call_pool_data, to_backstop in Ep. rewrite Ebs in Ep. apply pool_data_fields in Ep as (Etok & _).
  exists au, (Z.min (pd_tokens pd) l1). split; [done|]. split; [exact Hno|].
  split; [unfold auction; rewrite Hp'; simpl; by rewrite lookup_insert|]. split; [exact Hb|].
  split.
  { intros r. apply bad_debt_bid in Ef; cbn [fst snd] in Ef.
    2: { apply Forall_forall. intros [i v] Hin. apply elem_of_entries in Hin. simpl. exact (gd_pos _ G _ KLiab _ _ Hin). }
    pose proof (account_shares w a KLiab (ps_backstop (pool w a)) r G) as A. cbn [acc_k] in A. etransitivity; [|symmetry; exact A].
    rewrite <- (burn_shares _ _ _ r G Ef). rewrite <- E. done. }
  split; [by rewrite <- E|]. split; [unfold backstop_tokens; lia|].
  split. { intros v. unfold same_acc, account, sup_of, coll_of, liab_of, index_of, positions. rewrite Hp'. simpl. done. }
  split; [intros; unfold held; by rewrite Hx'|]. unfold backstop_tokens. by rewrite Hx'.
Qed.

(** a fill: the filler takes over the scaled bid, the backstop pays at most its tokens for
    this pool, and what it still owes is burned only below 5% of the threshold *)
Theorem C24_fill : forall w sg a filler spender to u n out w',
  reachable w -> exec w (OPool sg a (PSubmit filler spender to [mkReq 7 u n])) = Ok (out, w') ->
  let bs := ps_backstop (pool w a) in
  exists au lot, auction w a 1 u = Some au /\
    let f := filled au (n mod 2 ^ 64) (w_seq w - au_block au) in
    amount_at (au_lot f) (backstop_token w) = lot /\ 0 < lot <= backstop_tokens w a /\
    backstop_tokens w' a = backstop_tokens w a - lot /\
    (forall b, b <> a -> backstop_tokens w' b = backstop_tokens w b) /\
    (forall tok v, held w' tok v = held w tok v
       + (if tok =? backstop_token w then (if v =? filler then lot else 0) - (if v =? bs_addr then lot else 0) else 0)) /\
    exists burned : Addr -> Z,
      (forall r, burned r = 0 \/ (below_5_percent w' a /\ owed (account w' a bs) r = 0)) /\
      (forall v r,
         owed (account w' a v) r = owed (account w a v) r
           - (if v =? bs then amount_at (au_bid f) r + burned r else 0) + (if v =? filler then amount_at (au_bid f) r else 0) /\
         collateral (account w' a v) r = collateral (account w a v) r /\ supplied (account w' a v) r = supplied (account w a v) r) /\
      (forall r d, reserve w a r = Some d -> exists d', reserve w' a r = Some d' /\
         rd_b_supply d' = rd_b_supply d /\ rd_d_supply d' = rd_d_supply d - burned r) /\
      (forall r, 0 <= burned r <= owed (account w a bs) r).
Proof.
  intros w sg a filler spender to u n out w' Hr H. cbv zeta.
  pose proof (reachable_step _ _ _ _ Hr H) as Hr'.
  apply submit_tx in H as (G & G' & Hcfg & _ & _ & _ & Hsa & Hta & _ & ls & x1 & ac & chk & t1 & t2 & pos & _ & _ & Hqs & Ht1 & Ht2 & Hx & _); [|done].
  pose proof (areqs_trace _ _ _ _ _ _ _ Hqs) as T. cbn [as_p] in T.
  inversion Hqs as [|? ? ? l1 s1 l2 ? Hamt Hal Hq Hqs']; subst. inversion Hqs'; subst. rewrite app_nil_r in *.
  inversion Hq as [? ? ? ? ? ? ? ? ? ? ? ? ? Ht'|? ? ? ? ? ? ? ? Ht'|L x ac0 chk0 au tf rem L1 L2 btok lot y1 y2 m Hty Hne Hnb Hau Hs T1 T2 Hbt Hlot Hdr Hm|? ? ? ? ? ? ? ? ? ? ? ? Ht'|? ? ? ? ? Ht']; subst;
    try (simpl in Ht'; lia).
  simpl in Hau, Hne, Hnb, T, Hm, Hbt, Hlot, Hdr. simpl in Hs. apply scale_filled in Hs as (Hp & Hbl & -> & ->); [|apply as_u64_nonneg].
  change (as_u64 n) with (n mod 2 ^ 64) in *. change (c_seq (ctx w sg)) with (w_seq w) in *.
  set (f := filled au (n mod 2 ^ 64) (w_seq w - au_block au)) in *.
  exists au, lot. unfold auction. rewrite Hau. split; [done|].
  unfold call_backstop_token, to_backstop in Hbt. simpl in Hbt. destruct (ps_backstop (pool w a) =? bs_addr) eqn:Ebs; [|discriminate].
  destruct (bs_init (x_bs (w_ext w))); [|discriminate]. injection Hbt as <-.
  split. { etransitivity; [exact (f_equal (default 0) Hlot)|done]. }
  apply draw_spec in Hdr as (Hl & Hpb & Hpo & Hlp & Htk & Hor & Hbal).
  assert (0 < lot) as Hl0.
  { unfold f, filled in Hlot. cbn [au_lot] in Hlot. apply lookup_omap_Some in Hlot as (v & Hv & _).
    unfold positive in Hv. destruct (Z.ltb_spec 0 (handed v (n mod 2 ^ 64) (w_seq w - au_block au))); [|discriminate]. injection Hv as <-. done. }
  split; [unfold backstop_tokens; lia|].
  assert (x_bs x1 = x_bs y1 /\ x_tok x1 = x_tok y1) as [Hbs1 Htk1].
  { destruct Hm as [(_ & -> & _)|(_ & _ & _ & ->)]; [done|]. clear. induction (entries m) as [|e l IH]; [done|]. simpl. exact IH. }
  assert (forall b, get_pb (w_ext w') b = get_pb y1 b) as Hgp. { intros b. rewrite Hx. unfold get_pb. simpl. by rewrite Hbs1. }
  split. { unfold backstop_tokens. rewrite Hgp, Hpb. done. }
  split. { intros b Hb. unfold backstop_tokens. rewrite Hgp, (Hpo b) by done. done. }
  split.
  { intros tok v. unfold held. rewrite Hx. simpl. rewrite (transfer_all_none _ _ _ _ _ Ht2), (transfer_all_none _ _ _ _ _ Ht1), Htk1, Hbal.
    unfold backstop_token. destruct (Z.eqb_spec tok (bs_token (x_bs (w_ext w)))) as [->|Hn].
    - destruct (Z.eqb_spec v bs_addr) as [->|H1]; [rewrite bool_decide_true by done|rewrite (bool_decide_false (_ /\ bs_addr = v)) by (intros [_ ?]; done)];
      (destruct (Z.eqb_spec v filler) as [->|H2] || destruct (Z.eqb_spec bs_addr filler) as [<-|H2]);
      try (rewrite (bool_decide_true (_ /\ _)) by done); try (rewrite (bool_decide_false (_ /\ filler = _)) by (intros [_ ?]; congruence)); lia.
    - rewrite !bool_decide_false by (intros [? _]; congruence). lia. }
  pose proof (touch_good _ filler G) as Gt. pose proof (ptrace_good _ _ _ _ Gt T1) as G1.
  assert (forall r, shares L1 KLiab (ps_backstop (pool w a)) r = owed (account w a (ps_backstop (pool w a))) r - amount_at (au_bid f) r) as Hsh.
  { intros r. rewrite (trace_shares _ _ _ _ _ _ _ Gt T1), touch_shares.
    pose proof (account_shares w a KLiab (ps_backstop (pool w a)) r G) as A. cbn [acc_k] in A. rewrite <- A.
    rewrite sumz_cons, sumz_app, rm_lbls_contrib, add_lbls_contrib. cbn [contrib]. cbn [ps_backstop touch set].
    rewrite decide_True by done. rewrite decide_False by congruence. change (getz (au_bid f) r) with (amount_at (au_bid f) r). lia. }
  assert (forall r, getz m r = 0 \/ (below_5_percent w' a /\ getz m r = shares L1 KLiab (ps_backstop (pool w a)) r)) as Hburn.
  { intros r. destruct Hm as [(-> & _)|(_ & Hbm & (pd & Hpd & Hth) & _)]; [by left|right].
    split.
    - unfold call_pool_data, to_backstop in Hpd. simpl in Hpd. rewrite Ebs in Hpd.
      apply pool_data_fields in Hpd as (_ & vb & vu & Hv & E1 & E2). apply threshold_below in Hth. rewrite E1, E2 in Hth.
      exists vb, vu. split; [rewrite Hx; simpl; by rewrite Hbs1|]. unfold backstop_tokens. rewrite Hgp. done.
    - apply burn_shares; [done|]. rewrite <- Hbm. f_equal. pose proof (ptrace_cfg _ _ _ _ T1) as (_ & _ & _ & _ & _ & E & _). exact E. }
  assert (forall v r,
    owed (account w' a v) r = owed (account w a v) r
      - (if v =? ps_backstop (pool w a) then amount_at (au_bid f) r + getz m r else 0) + (if v =? filler then amount_at (au_bid f) r else 0) /\
    collateral (account w' a v) r = collateral (account w a v) r /\ supplied (account w' a v) r = supplied (account w a v) r) as Hacc.
  { intros v r.
    assert (forall k, acc_k k (account w' a v) r = acc_k k (account w a v) r +
      ((if decide (ps_backstop (pool w a) = v) then match k with KLiab => - (amount_at (au_bid f) r + getz m r) | _ => 0 end else 0) +
       (if decide (filler = v) then match k with KLiab => amount_at (au_bid f) r | _ => 0 end else 0))) as Hk.
    { intros k. rewrite (trace_account _ _ _ _ _ _ k v r G T). rewrite sumz_cons, !sumz_app, !rm_lbls_contrib, add_lbls_contrib. cbn [contrib].
      rewrite sumz_cons, sumz_nil. cbn [contrib]. change (getz ∅ r) with 0. cbn [ps_backstop touch set].
      change (getz (au_bid f) r) with (amount_at (au_bid f) r).
      destruct k; repeat case_match; lia. }
    pose proof (Hk KColl) as K1. pose proof (Hk KLiab) as K2. pose proof (Hk KSup) as K3. cbn [acc_k] in K1, K2, K3.
    rewrite K1, K2, K3.
    destruct (Z.eqb_spec v (ps_backstop (pool w a))), (Z.eqb_spec v filler), (decide (ps_backstop (pool w a) = v)), (decide (filler = v)); try congruence; repeat split; lia. }
  exists (fun r => getz m r).
  split.
  { intros r. destruct (Hburn r) as [?|[Hb E]]; [by left|right]. split; [done|].
    destruct (Hacc (ps_backstop (pool w a)) r) as (-> & _). rewrite Z.eqb_refl, (proj2 (Z.eqb_neq _ filler)) by congruence. rewrite E, Hsh. lia. }
  split; [exact Hacc|]. split.
  - intros r d Hd. change (ps_rdata (touch (pool w a) filler) !! r = Some d) in Hd.
    destruct (trace_supply _ _ _ _ _ _ T Hd) as (d' & Hd' & Hsu & _). exists d'. split; [exact Hd'|].
    pose proof (Hsu KColl) as S1. pose proof (Hsu KLiab) as S2.
    rewrite sumz_cons, !sumz_app, !tsup_rm, tsup_add in S1, S2. change (getz ∅ r) with 0 in S1. cbn [side tsup] in S1, S2. rewrite sumz_cons, sumz_nil in S1, S2. cbn [tsup sup_k] in S1, S2. split; [lia|]. lia.
  - intros r. assert (0 <= amount_at (au_bid f) r) as Hb0.
    { unfold f, filled, amount_at. cbn [au_bid]. rewrite lookup_omap. destruct (au_bid au !! r) as [v|]; simpl; [|done].
      unfold positive. destruct (Z.ltb_spec 0 (charged v (n mod 2 ^ 64) (w_seq w - au_block au))); simpl; lia. }
    destruct (account_nonneg w a (ps_backstop (pool w a)) r Hr) as (_ & _ & P2).
    destruct (Hburn r) as [->|[_ ->]]; [lia|]. pose proof (Hsh r) as Hs. 
    assert (0 <= shares L1 KLiab (ps_backstop (pool w a)) r).
    { unfold shares. destruct (ps_rcfg L1 !! r); [|done]. apply (pos_ok_getz L1 _ KLiab), G1. }
    lia.
Qed.
