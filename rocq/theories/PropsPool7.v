(** * Interest auctions: C25 *)
From Verif Require Import Base Types Token Emitter Factory Backstop PoolReserve PoolUser PoolHealth
  PoolAuction PoolSubmit PoolEmis PoolAdmin World Facts XMove Spec PoolFrame PoolCfg PoolAccrue PoolTrace PoolInv AuctionFacts
  PoolSim PoolReq PoolHF PoolOps PoolLiq PoolReach PoolTx FrameFacts PropsAdmin BackMoves BackInv PropsBackstop PropsBackstop2
  PropsPool1 PropsPool2 PropsPool3 PropsPool4 PropsPool5 PropsPool6.

(** ** Specification *)

(** the backstop credit of reserve [r] including the interest up to now, its oracle price and
    decimals, and what that credit is worth in the oracle's base units (rounded down) *)
Definition credit_now (w : World) (a r : Addr) : Z := rd_credit (data_at (w_now w) (pool w a) r).
Definition credit_value (w : World) (a r : Addr) : Z :=
  if 0 <? credit_now w a r
  then price_of (pool w a) (w_ext w) r * credit_now w a r / 10 ^ rc_decimals (cfg_of (pool w a) r) else 0.
(** the value of one backstop token in base units: five times its USDC (an 80/20 LP) *)
Definition token_value (w : World) (a : Addr) (dec : Z) : Z :=
  match bs_lpval (x_bs (w_ext w)) with
  | Some (_, u) => (backstop_tokens w a * u / 10000000) * 10 ^ dec / 10000000 * 5 * 10000000 / backstop_tokens w a
  | None => 0
  end.
Definition take_rate (w : World) (a : Addr) : Z := pc_bstop_rate (ps_config (pool w a)).

(** ** Creation *)
Lemma interest_fold now p x assets : forall c iv lot ch iv' lot' ch',
  c_now c = now -> pwf now x ch -> ch_cfg ch = ps_config p -> ch_res ch = ∅ -> cfg_wf p ->
  foldM (interest_one c p x) (iv, lot, ch) assets = Ok (iv', lot', ch') ->
  iv' = iv + sumz (fun r => if 0 <? rd_credit (data_at now p r) then price_of p x r * rd_credit (data_at now p r) / 10 ^ rc_decimals (cfg_of p r) else 0) assets /\
  (forall r, lot' !! r = if bool_decide (r ∈ assets /\ 0 < rd_credit (data_at now p r)) then Some (rd_credit (data_at now p r)) else lot !! r) /\
  (forall r, r ∈ assets -> is_Some (ps_rcfg p !! r) /\ (0 < rd_credit (data_at now p r) -> fresh_price now p x r)).
Proof.
  induction assets as [|b assets IH]; intros c iv lot ch iv' lot' ch' Hn P Hcf Hre Wc H.
  - injection H as <- <- <-. rewrite sumz_nil. split; [lia|]. split; [intros r; rewrite bool_decide_false; [done|by intros [?%elem_of_nil _]]|]. by intros r ?%elem_of_nil.
  - cbn [foldM] in H. apply bind_ok in H as ([[iv1 lot1] ch1] & E & H). unfold interest_one in E.
    apply bind_ok in E as ([r ch0] & El & E). unfold load_reserve in El. cbn [andb] in El. rewrite Hre, lookup_empty in El.
    apply bind_ok in El as (r0 & El & E0). injection E0 as <- <-.
    apply load_res_fields in El as (cfg & d & Hc & Hd & Ha & _ & _ & _ & _ & Hsc & Hac). rewrite Hcf, Hn in Hac.
    assert (r_data r0 = data_at now p b) as Hda. { unfold data_at. by rewrite Hc, Hd, Hac. }
    rewrite Hda in E. rewrite sumz_cons.
    assert (ch_cfg ch1 = ps_config p /\ ch_res ch1 = ∅ /\ pwf now x ch1 /\
      iv1 = iv + (if 0 <? rd_credit (data_at now p b) then price_of p x b * rd_credit (data_at now p b) / 10 ^ rc_decimals (cfg_of p b) else 0) /\
      lot1 = (if 0 <? rd_credit (data_at now p b) then <[b := rd_credit (data_at now p b)]> lot else lot) /\
      (0 < rd_credit (data_at now p b) -> fresh_price now p x b)) as (C1 & C2 & P1 & -> & -> & Hf).
    { destruct (Z.ltb_spec 0 (rd_credit (data_at now p b))) as [Hpos|Hpos].
      - apply bind_ok in E as ([pr ch2] & Ep & E). rewrite Hn in Ep. apply load_price_spec in Ep as ((t & Ho & Ht) & P2 & Q1 & Q2 & Q3); [|done].
        mon E. rewrite Q1, Q2. split; [done|]. split; [done|]. split; [done|].
        match goal with E : i128 _ = Ok _ |- _ => apply i128_ok in E as [-> _] end.
        match goal with E : fmul_floor _ _ _ = Ok _ |- _ => rewrite Hsc in E; apply fmul_floor_ok in E as [-> _] end.
        2: { pose proof (cw_valid _ Wc _ _ Hc) as V. apply Z.pow_pos_nonneg; [lia|]. apply V. }
        rewrite Hcf in Ho. split; [|split; [done|intros _; by exists pr, t]]. unfold price_of, cfg_of. rewrite Ho, Hc. done.
      - injection E as <- <- <-. do 3 (split; [done|]). split; [lia|]. split; [done|]. lia. }
    apply IH in H as (-> & Hl & Hin); [|done..].
    split; [lia|]. split.
    + intros r. rewrite Hl. destruct (decide (r = b)) as [->|Hne].
      * destruct (Z.ltb_spec 0 (rd_credit (data_at now p b))) as [Hpos|Hpos].
        -- rewrite lookup_insert. rewrite (bool_decide_true (b ∈ b :: assets /\ _)) by (split; [left|done]). by case_bool_decide.
        -- rewrite !bool_decide_false by (intros [_ ?]; lia). done.
      * assert ((if 0 <? rd_credit (data_at now p b) then <[b:=rd_credit (data_at now p b)]> lot else lot) !! r = lot !! r) as ->.
        { destruct (0 <? _); [by rewrite lookup_insert_ne|done]. }
        apply decide_ext || idtac. erewrite bool_decide_ext; [done|]. rewrite elem_of_cons. tauto.
    + intros r [->|Hr]%elem_of_cons; [|by apply Hin]. split; [by rewrite Hc|done].
Qed.

Theorem C25_creation : forall w sg a assets out w',
  reachable w -> exec w (OPool sg a (PNewInterest assets)) = Ok (out, w') ->
  let bs := ps_backstop (pool w a) in
  exists au bid dec, out = OutAuction au /\ auction w a 2 bs = None /\ auction w' a 2 bs = Some au /\ au_block au = w_seq w + 1 /\
    o_dec (x_orc (w_ext w)) !! pc_oracle (ps_config (pool w a)) = Some dec /\
    (forall r, au_lot au !! r = if bool_decide (r ∈ assets) then positive (credit_now w a r) else None) /\
    200 * 10 ^ dec < sumz (credit_value w a) assets /\
    (forall r, r ∈ assets -> is_Some (reserve w a r) /\ (0 < credit_now w a r -> fresh_price (w_now w) (pool w a) (w_ext w) r)) /\
    au_bid au = {[ backstop_token w := bid ]} /\
    0 < backstop_tokens w a /\
    (0 < token_value w a dec -> bid = (sumz (credit_value w a) assets * 14000000 / 10000000) * 10000000 / token_value w a dec) /\
    (forall v, same_acc (account w' a v) (account w a v)) /\ (forall tok v, held w' tok v = held w tok v) /\
    backstop_tokens w' a = backstop_tokens w a /\ (forall r, reserve w' a r = reserve w a r).
Proof.
  intros w sg a assets out w' Hr H. cbv zeta. destruct (tx_good _ _ _ _ _ _ Hr H) as [Hi G]; [done|].
  apply exec_opool in H as (_ & _ & _ & px & H & Hp' & Hx' & _). simpl in H. rewrite Hi in H. simpl in H.
  apply bind_ok in H as ([au p1] & E & H). injection H as <- <-. simpl in Hp', Hx'.
  pose proof (create_interest_new _ _ _ _ _ _ _ E) as [Hno Hb]. pose proof (create_interest_auct _ _ _ _ _ _ _ E) as ->.
  unfold create_interest in E. apply assert_ok in E as [_ E].
  apply bind_ok in E as ([dec ch] & Ed & E). apply bind_ok in E as (osc & Eo & E). apply bind_ok in E as (blk & _ & E).
  apply bind_ok in E as ([[iv lot] ch1] & Ef & E). apply bind_ok in E as (mn & Em & E).
  apply assert_ok in E as [Hmin E]. apply assert_ok in E as [_ E].
  apply bind_ok in E as (pd & Ep & E). apply bind_ok in E as (tv & Etv & E).
  apply bind_ok in E as (b0 & Eb0 & E). apply bind_ok in E as (b1 & Eb1 & E). apply bind_ok in E as (btok & Et & E).
  injection E as E _.
  unfold call_backstop_token, to_backstop in Et. destruct (ps_backstop (pool w a) =? bs_addr) eqn:Ebs; [|discriminate].
  destruct (bs_init (x_bs (w_ext w))); [|discriminate]. injection Et as <-.
  unfold call_pool_data, to_backstop in Ep. rewrite Ebs in Ep. apply pool_data_fields in Ep as (Etok & vb & vu & Hlp & _ & Eus).
  apply i128_ok in Eo as [-> _]. apply i128_ok in Em as [-> _].
  assert (o_dec (x_orc (w_ext w)) !! pc_oracle (ps_config (pool w a)) = Some dec /\ pwf (w_now w) (w_ext w) ch /\
    ch_cfg ch = ps_config (pool w a) /\ ch_res ch = ∅) as (Hdec & P & Q1 & Q2).
  { unfold load_dec in Ed. simpl in Ed. apply bind_ok in Ed as (d0 & Eo & Ed). injection Ed as <- <-.
    destruct (o_dec _ !! _) as [d1|] eqn:Eq; [|discriminate]. injection Eo as ->. split; [done|].
    split; [|done]. constructor; simpl; [intros ? ?; by rewrite lookup_empty|]. by intros ? [= <-]. }
  apply (interest_fold (w_now w)) in Ef as (-> & Hlot & Hfr); [|done|done|done|done|apply G].
  exists au, b1, dec. split; [done|]. split; [exact Hno|].
  split; [unfold auction; rewrite Hp'; simpl; by rewrite lookup_insert|]. split; [exact Hb|]. split; [exact Hdec|].
  split. { intros r. rewrite <- E. cbn [au_lot]. rewrite Hlot. unfold positive, credit_now.
    destruct (bool_decide (r ∈ assets)) eqn:Eb.
    - apply bool_decide_eq_true in Eb. destruct (Z.ltb_spec 0 (rd_credit (data_at (w_now w) (pool w a) r))).
      + by rewrite bool_decide_true. + rewrite bool_decide_false; [done|lia].
    - apply bool_decide_eq_false in Eb. rewrite bool_decide_false; [done|tauto]. }
  split. { apply negb_true_iff, Z.leb_gt in Hmin. exact Hmin. }
  split. { intros r Hin. destruct (Hfr r Hin) as [H1 H2]. split; [|done]. by apply (gd_dom _ G). }
  split; [by rewrite <- E|]. split.
  { unfold backstop_token_value in Etv. mon Etv.
    unfold fdiv_floor, div_floor in Etv. mon Etv. destruct (Z.eqb_spec (pd_tokens pd) 0) as [|Hz]; [discriminate|]. rewrite Etok in Hz.
    destruct (binv_pool _ _ a (reachable_binv _ Hr)) as [_ B]. unfold backstop_tokens. lia. }
  split.
  { unfold backstop_token_value in Etv. mon Etv. intros Htv.
    match goal with E : fmul_floor (pd_usdc pd) _ _ = Ok _ |- _ => apply fmul_floor_ok in E as [-> _]; [|vals; lia] end.
    match goal with E : i128 _ = Ok _ |- _ => apply i128_ok in E as [-> _] end.
    assert (0 < pd_tokens pd) as Htp.
    { pose proof Etv as E1. unfold fdiv_floor, div_floor in E1. mon E1. destruct (Z.eqb_spec (pd_tokens pd) 0) as [|Hz]; [discriminate|]. rewrite Etok in *.
      destruct (binv_pool _ _ a (reachable_binv _ Hr)) as [_ B]. lia. }
    apply fdiv_floor_ok in Etv as [Etv _]; [|done]. rewrite Eus, Etok in Etv.
    unfold token_value in *. rewrite Hlp in *. unfold backstop_tokens in *. vals. rewrite <- Etv in *.
    apply fmul_floor_ok in Eb0 as [-> _]; [|lia]. apply fdiv_floor_ok in Eb1 as [-> _]; [|done]. done. }
  split. { intros v. unfold same_acc, account, sup_of, coll_of, liab_of, index_of, positions. rewrite Hp'. simpl. done. }
  split; [intros; unfold held; by rewrite Hx'|]. split; [unfold backstop_tokens; by rewrite Hx'|].
  intros r. unfold reserve. by rewrite Hp'.
Qed.

(** ** Fills *)
Lemma cred_in now p l p' r n : ptrace now p (cred_lbls l) p' -> good p -> (r, n) ∈ l -> exists d, ps_rdata p !! r = Some d.
Proof.
  intros T G Hin. apply elem_of_list_split in Hin as (l1 & l2 & ->).
  unfold cred_lbls in T. rewrite flat_map_app in T. apply ptrace_app_inv in T as (q & T1 & T2). cbn in T2.
  inversion T2 as [|? ? ? ? ? M _]; subst. inversion M; subst. 
  pose proof (ptrace_cfg _ _ _ _ T1) as (_ & _ & _ & _ & _ & _ & E & _).
  apply (gd_dom _ G r). rewrite <- E. eauto.
Qed.
Theorem C25_fill : forall w sg a filler spender to u n out w',
  reachable w -> exec w (OPool sg a (PSubmit filler spender to [mkReq 8 u n])) = Ok (out, w') ->
  exists au bid, auction w a 2 u = Some au /\ auction w' a 2 u = remainder au (n mod 2 ^ 64) /\
    let f := filled au (n mod 2 ^ 64) (w_seq w - au_block au) in
    amount_at (au_bid f) (backstop_token w) = bid /\ 0 < bid /\
    backstop_tokens w' a = backstop_tokens w a + bid /\ (forall b, b <> a -> backstop_tokens w' b = backstop_tokens w b) /\
    (forall tok v, held w' tok v = held w tok v
       + (if tok =? backstop_token w then (if v =? bs_addr then bid else 0) - (if v =? filler then bid else 0) else 0)
       + (if v =? filler then amount_at (au_lot f) tok else 0) - (if v =? a then amount_at (au_lot f) tok else 0)) /\
    (forall v, same_acc (account w' a v) (account w a v)) /\
    (forall r, amount_at (au_lot f) r <> 0 -> exists d', reserve w' a r = Some d' /\ rd_credit d' = credit_now w a r - amount_at (au_lot f) r) /\
    (forall r d, reserve w a r = Some d -> exists d', reserve w' a r = Some d' /\ rd_b_supply d' = rd_b_supply d /\ rd_d_supply d' = rd_d_supply d).
Proof.
  intros w sg a filler spender to u n out w' Hr H. pose proof H as H0.
  pose proof (C18_auctions_after_submit _ _ _ _ _ _ _ _ _ 2 u Hr H ltac:(lia)) as Ha. simpl in Ha. unfold after_request in Ha.
  simpl rq_type in Ha. simpl rq_addr in Ha. rewrite !Z.eqb_refl in Ha. simpl in Ha. change (percent (mkReq 8 u n)) with (n mod 2 ^ 64) in Ha.
  apply submit_tx in H as (G & G' & Hcfg & _ & _ & _ & Hsa & Hta & _ & ls & x1 & ac & chk & t1 & t2 & pos & _ & _ & Hqs & Ht1 & Ht2 & Hx & _); [|done].
  pose proof (areqs_trace _ _ _ _ _ _ _ Hqs) as T. cbn [as_p] in T.
  inversion Hqs as [|? ? ? l1 s1 l2 ? Hamt Hal Hq Hqs']; subst. inversion Hqs'; subst. rewrite app_nil_r in *.
  inversion Hq as [? ? ? ? ? ? ? ? ? ? ? ? ? Ht'|? ? ? ? ? ? ? ? Ht'|? ? ? ? ? ? ? ? ? ? ? ? ? ? Ht'|L x ac0 chk0 au tf rem L1 btok bid y1 y2 Hty Hne Hnb Hau Hs Hbt Hbid Hdo Htr T1|? ? ? ? ? Ht']; subst;
    try (simpl in Ht'; lia).
  simpl in Hau, Hne, Hnb, T, Hbt, Hbid, Hdo, Htr. simpl in Hs. apply scale_filled in Hs as (Hp & Hbl & -> & ->); [|apply as_u64_nonneg].
  change (as_u64 n) with (n mod 2 ^ 64) in *. change (c_seq (ctx w sg)) with (w_seq w) in *.
  exists au, bid. unfold auction in *. rewrite Hau in *. split; [done|]. split; [exact Ha|].
  cbv zeta. set (f := filled au (n mod 2 ^ 64) (w_seq w - au_block au)) in *.
  unfold call_backstop_token, to_backstop in Hbt. simpl in Hbt. destruct (ps_backstop (pool w a) =? bs_addr) eqn:Ebs; [|discriminate].
  destruct (bs_init (x_bs (w_ext w))); [|discriminate]. injection Hbt as <-.
  split. { etransitivity; [exact (f_equal (default 0) Hbid)|done]. }
  apply donate_spec in Hdo as (Hl & Hpb & Hpo & Hlp & Htk & Hor & Hbal).
  split. { unfold f, filled in Hbid. cbn [au_bid] in Hbid. apply lookup_omap_Some in Hbid as (v & Hv & _).
    unfold positive in Hv. destruct (Z.ltb_spec 0 (charged v (n mod 2 ^ 64) (w_seq w - au_block au))); [|discriminate]. injection Hv as <-. done. }
  assert (forall b, get_pb (w_ext w') b = get_pb y1 b) as Hgp. { intros b. rewrite Hx. done. }
  split. { unfold backstop_tokens. rewrite Hgp, Hpb. done. }
  split. { intros b Hb. unfold backstop_tokens. rewrite Hgp, (Hpo b) by done. done. }
  split.
  { intros tok v. unfold held. assert (x_tok (w_ext w') = t2) as -> by (by rewrite Hx).
    rewrite (transfer_all_none _ _ _ _ _ Ht2), (transfer_all_none _ _ _ _ _ Ht1).
    change (x_tok (y1 <| x_tok := y2 |>)) with y2. rewrite (transfer_all_spec _ _ _ _ _ _ Htr), Hbal. change (getz (au_lot f) tok) with (amount_at (au_lot f) tok).
    unfold backstop_token. destruct (Z.eqb_spec tok (bs_token (x_bs (w_ext w)))) as [->|Hn].
    - assert (forall y : Addr, bool_decide (bs_token (x_bs (w_ext w)) = bs_token (x_bs (w_ext w)) /\ y = v) = (v =? y)) as Hbd.
      { intros y. destruct (Z.eqb_spec v y); [by apply bool_decide_true|apply bool_decide_false; intros [_ ?]; congruence]. }
      rewrite !Hbd. destruct (v =? filler), (v =? a), (v =? bs_addr); lia.
    - rewrite !bool_decide_false by (intros [? _]; congruence). destruct (v =? filler), (v =? a); lia. }
  split.
  { intros v. assert (forall k r, acc_k k (account w' a v) r = acc_k k (account w a v) r) as Hk.
    { intros k r. rewrite (trace_account _ _ _ _ _ _ k v r G T). rewrite sumz_app, cred_contrib, sumz_cons, sumz_nil. cbn [contrib]. lia. }
    split; [|split]; intros r; [exact (Hk KSup r)|exact (Hk KColl r)|exact (Hk KLiab r)]. }
  split.
  - intros r Hnz. assert (exists d, reserve w a r = Some d) as [d Hd].
    { apply ptrace_app_inv in T as (q & T & _).
      destruct (au_lot f !! r) as [v|] eqn:Ev; [|exfalso; apply Hnz; exact (f_equal (default 0) Ev)].
      eapply (cred_in _ _ _ _ r v) in T; [exact T|by apply touch_good|by apply elem_of_entries]. }
    destruct (proj2 (gd_dom _ G r) (ex_intro _ _ Hd)) as [cfg Hc].
    destruct (step_reserve _ _ _ _ _ _ _ _ Hr H0 Hc Hd) as (d' & d0 & Hd' & Hd0 & _ & _ & _ & E4 & E5 & E6).
    exists d'. split; [exact Hd'|].
    assert (credit_sold w (OPool sg a (PSubmit filler spender to [mkReq 8 u n])) a r = amount_at (au_lot f) r) as Hso.
    { cbn [credit_sold sold rq_type rq_addr]. rewrite !Z.eqb_refl. unfold auction. rewrite Hau. unfold percent. cbn [rq_amt]. fold f. lia. }
    rewrite Hso in E5. destruct (decide (rd_last_time d' = w_now w)) as [Hl'|Hl'].
    + assert (accrue (w_now w) (pc_bstop_rate (ps_config (pool w a))) cfg d = Ok d0) as Hac.
      { destruct Hd0 as [->|?]; [|done]. unfold accrue. by rewrite <- E4, Hl', Z.eqb_refl. }
      rewrite E5. unfold credit_now, data_at. unfold reserve in Hd. by rewrite Hc, Hd, Hac.
    + exfalso. specialize (E6 Hl'). subst d'. destruct Hd0 as [->|Hac]; [lia|].
      destruct (accrue_spec _ _ _ _ _ (good_rd _ _ _ G Hd) (cw_valid _ (gd_cfg _ G) _ _ Hc) (cw_rate _ (gd_cfg _ G)) Hac) as (_ & _ & _ & E & _). congruence.
  - intros r d Hd. change (ps_rdata (touch (pool w a) filler) !! r = Some d) in Hd.
    destruct (trace_supply _ _ _ _ _ _ T Hd) as (d' & Hd' & Hsu & _). exists d'. split; [exact Hd'|].
    pose proof (Hsu KColl) as S1. pose proof (Hsu KLiab) as S2.
    rewrite sumz_app, tsup_cred in S1, S2. simpl in S1, S2. lia.
Qed.
