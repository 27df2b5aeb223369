(** * When liquidation auctions can be opened, and with what lot: C67, C16 *)
From Verif Require Import Base Types Token Emitter Factory Backstop PoolReserve PoolUser PoolHealth
  PoolAuction PoolSubmit PoolEmis PoolAdmin World Facts XMove Spec PoolFrame PoolCfg PoolAccrue PoolTrace PoolInv AuctionFacts
  PoolSim PoolReq PoolHF PoolOps PoolLiq PoolReach PoolTx PoolEmisInv FrameFacts PropsAdmin BackMoves BackInv PropsBackstop PropsBackstop2 PropsBackstop5
  PropsPool1 PropsPool2 PropsPool3 PropsPool4 PropsPool5 PropsPool6 PropsPool7 PropsPool9 PropsPool10 PoolLive PropsPool13 PropsPool15 PropsPool16 PropsPool17 PropsPool20 PropsPool22 PropsPool23 PropsPool24.

(** ** Specification *)
(** the values of the account of [u]: collateral and debt, weighted with the assets' factors or not *)
Definition coll_weighted (w : World) (a u : Addr) : Z := eff_coll (w_now w) (pool w a) (w_ext w) (positions w a u).
Definition coll_worth (w : World) (a u : Addr) : Z := raw_coll (w_now w) (pool w a) (w_ext w) (positions w a u).
Definition debt_weighted (w : World) (a u : Addr) : Z := eff_liab (w_now w) (pool w a) (w_ext w) (positions w a u).
Definition debt_worth (w : World) (a u : Addr) : Z := raw_liab (w_now w) (pool w a) (w_ext w) (positions w a u).
(** the share of the debts that is auctioned for [pct] percent, with [dec] decimals *)
Definition bid_share (dec pct : Z) : Z := pct * 10 ^ dec / 100.
(** what is paid for a debt of 1: 1 + (1 - cf / lf) / 2 for average collateral and liability factors cf, lf *)
Definition premium (w : World) (a u : Addr) (dec : Z) : Z :=
  let S := 10 ^ dec in
  let cf := coll_weighted w a u * S / coll_worth w a u in
  let lf := debt_weighted w a u * S / debt_worth w a u in
  cdiv ((S - cdiv (cf * S) lf) * S) (2 * S) + S.
(** so the lot for [pct] percent of the debts should be worth this ... *)
Definition lot_worth (w : World) (a u : Addr) (dec pct : Z) : Z :=
  debt_worth w a u * bid_share dec pct / 10 ^ dec * premium w a u dec / 10 ^ dec.
(** ... which is this share of the collateral, but not more than all *)
Definition lot_share (w : World) (a u : Addr) (dec pct : Z) : Z :=
  Z.min (10 ^ dec) (cdiv (lot_worth w a u dec pct * 10 ^ dec) (coll_worth w a u)).
(** the account that is left when all that is taken away *)
Definition left_with (w : World) (a u : Addr) (dec pct : Z) : Positions :=
  let pos := positions w a u in
  pos <| po_coll := (fun v => v - cdiv (v * lot_share w a u dec pct) (10 ^ dec)) <$> po_coll pos |>
      <| po_liab := (fun v => v - cdiv (v * bid_share dec pct) (10 ^ dec)) <$> po_liab pos |>.
(** a health factor between 1.03 and 1.15, with [dec] decimals *)
Definition in_band (w : World) (a : Addr) (dec : Z) (pos : Positions) : Prop :=
  let C := eff_coll (w_now w) (pool w a) (w_ext w) pos in
  let L := eff_liab (w_now w) (pool w a) (w_ext w) pos in
  L * (10 ^ dec * 10300000 / 10000000) <= C * 10 ^ dec < L * (cdiv (10 ^ dec * 11500000) 10000000 + 1).

(** ** Lemmas *)
Lemma values_ext now p x pos pos' :
  (forall (i : nat) r, ps_list p !! i = Some r -> get_coll pos' (Z.of_nat i) = get_coll pos (Z.of_nat i) /\ get_liab pos' (Z.of_nat i) = get_liab pos (Z.of_nat i)) ->
  eff_coll now p x pos' = eff_coll now p x pos /\ raw_coll now p x pos' = raw_coll now p x pos /\
  eff_liab now p x pos' = eff_liab now p x pos /\ raw_liab now p x pos' = raw_liab now p x pos.
Proof.
  intros H. unfold eff_coll, raw_coll, eff_liab, raw_liab, over_reserves.
  repeat split; apply sumz_ext; intros [i r] Hin; apply indexed_in in Hin as [Hi Hl]; rewrite Z.sub_0_r in Hl; destruct (H _ _ Hl) as [H1 H2];
    rewrite Z2Nat.id in H1, H2 by done; cbn [fst snd]; by rewrite ?H1, ?H2.
Qed.
Lemma coll_some now p x pos : raw_coll now p x pos <> 0 -> exists (i : nat) r, ps_list p !! i = Some r /\ get_coll pos (Z.of_nat i) <> 0.
Proof.
  intros H. destruct (decide (Exists (fun e : Z * Addr => get_coll pos e.1 <> 0) (indexed 0 (ps_list p)))) as [Hx|Hx].
  - apply Exists_exists in Hx as ([i r] & Hin & Hn). apply indexed_in in Hin as [Hi Hl]. rewrite Z.sub_0_r in Hl. exists (Z.to_nat i), r. rewrite Z2Nat.id by done. done.
  - exfalso. apply H. unfold raw_coll, over_reserves. transitivity (sumz (fun _ => 0) (indexed 0 (ps_list p))).
    + apply sumz_ext. intros [i r] Hin. cbn [fst snd]. destruct (Z.eq_dec (get_coll pos i) 0) as [->|Hn]; [by apply zero_values|].
      exfalso. apply Hx. apply Exists_exists. by exists (i, r).
    + clear. induction (indexed 0 (ps_list p)) as [|e l IH]; [done|]. rewrite sumz_cons, IH. done.
Qed.
Lemma liab_some now p x pos : raw_liab now p x pos <> 0 -> exists (i : nat) r, ps_list p !! i = Some r /\ get_liab pos (Z.of_nat i) <> 0.
Proof.
  intros H. destruct (decide (Exists (fun e : Z * Addr => get_liab pos e.1 <> 0) (indexed 0 (ps_list p)))) as [Hx|Hx].
  - apply Exists_exists in Hx as ([i r] & Hin & Hn). apply indexed_in in Hin as [Hi Hl]. rewrite Z.sub_0_r in Hl. exists (Z.to_nat i), r. rewrite Z2Nat.id by done. done.
  - exfalso. apply H. unfold raw_liab, over_reserves. transitivity (sumz (fun _ => 0) (indexed 0 (ps_list p))).
    + apply sumz_ext. intros [i r] Hin. cbn [fst snd]. destruct (Z.eq_dec (get_liab pos i) 0) as [->|Hn]; [by apply zero_values|].
      exfalso. apply Hx. apply Exists_exists. by exists (i, r).
    + clear. induction (indexed 0 (ps_list p)) as [|e l IH]; [done|]. rewrite sumz_cons, IH. done.
Qed.

Lemma estimate_exact Cb Cr Lb Lr S pct ps w wp : 0 <= pct -> 0 < S -> 0 <= Cb <= Cr -> 0 <= Lr <= Lb ->
  liq_estimate (mkPosData Cb Cr Lb Lr S) pct = Ok (ps, w, wp) ->
  0 < Cr /\ 0 < Lr /\ ps = pct * S / 100 /\
  w = Lr * ps / S * (cdiv ((S - cdiv (Cb * S / Cr * S) (Lb * S / Lr)) * S) (2 * S) + S) / S /\
  wp = Z.min S (cdiv (w * S) Cr).
Proof.
  intros Hp Hs Hc Hl H. unfold liq_estimate in H. cbn [hd_coll_base hd_coll_raw hd_liab_base hd_liab_raw hd_scalar] in H.
  apply bind_ok in H as (ps0 & E0 & H). apply i128_ok in E0 as [-> _].
  apply bind_ok in H as (cf & Ecf & H).
  destruct (Z.eq_dec Cr 0) as [Hz|Hcr]; [rewrite Hz in Ecf; destruct (fdiv_floor_zero Cb S) as [e He]; by rewrite He in Ecf|].
  apply fdiv_floor_ok in Ecf as [-> _]; [|lia].
  apply bind_ok in H as (lf & Elf & H).
  destruct (Z.eq_dec Lr 0) as [Hz|Hlr]; [rewrite Hz in Elf; destruct (fdiv_floor_zero Lb S) as [e He]; by rewrite He in Elf|].
  apply fdiv_floor_ok in Elf as [-> _]; [|lia].
  assert (S <= Lb * S / Lr) as Hlf. { apply Z.div_le_lower_bound; nia. }
  apply bind_ok in H as (q & Eq & H). apply fdiv_ceil_ok in Eq as [-> _]; [|lia].
  apply bind_ok in H as (df & Edf & H). apply i128_ok in Edf as [-> _].
  apply bind_ok in H as (two & Etwo & H). apply i128_ok in Etwo as [-> _].
  apply bind_ok in H as (inc0 & Einc & H). apply fdiv_ceil_ok in Einc as [-> _]; [|lia].
  apply bind_ok in H as (inc & Ei & H). apply i128_ok in Ei as [-> _].
  apply bind_ok in H as (w0 & Ew0 & H). apply fmul_floor_ok in Ew0 as [-> _]; [|done].
  apply bind_ok in H as (w1 & Ew1 & H). apply fmul_floor_ok in Ew1 as [-> _]; [|done].
  apply bind_ok in H as (wp0 & Ewp & H). apply fdiv_ceil_ok in Ewp as [-> _]; [|lia].
  rewrite Z.quot_div_nonneg in H by nia. injection H as <- <- <-.
  split; [lia|]. split; [lia|]. split; [done|]. split; [done|].
  match goal with |- (if ?b then _ else _) = _ => destruct b eqn:Eb end; [apply Z.ltb_lt in Eb|apply Z.ltb_ge in Eb]; lia.
Qed.

(** all amounts that are removed are positive or negative, but not zero *)
Lemma removed_nonzero now u (m : gmap Addr Z) f (s s' : Fl) :
  (forall now p u pos r amt o, f now p u pos r amt = Ok o -> amt <> 0) ->
  foldM (pos_step f now u) s (entries m) = Ok s' -> forall r v, m !! r = Some v -> v <> 0.
Proof.
  intros Hf H r v Hv. apply elem_of_entries in Hv. revert s H. induction (entries m) as [|e l IH]; intros s H; [by apply elem_of_nil in Hv|].
  cbn [foldM] in H. apply bind_ok in H as (s1 & E & H). apply elem_of_cons in Hv as [<-|Hv]; [|by eapply IH].
  unfold pos_step in E. destruct s as [[p ch] pos]. apply bind_ok in E as ([r0 ch0] & _ & E). apply bind_ok in E as ([[p1 pos1] r1] & E1 & _). by eapply Hf.
Qed.
Lemma rm_nonzero now u s lot bid s' : rm_positions now u s lot bid = Ok s' ->
  (forall r v, lot !! r = Some v -> v <> 0) /\ (forall r v, bid !! r = Some v -> v <> 0).
Proof.
  intros H. unfold rm_positions in H. apply bind_ok in H as (s1 & E1 & E2). split; eapply removed_nonzero; try eassumption.
  - intros ? ? ? ? ? ? ? Hx. unfold remove_collateral in Hx. apply assert_ok in Hx as [Hx _]. apply negb_true_iff in Hx. by apply Z.eqb_neq.
  - intros ? ? ? ? ? ? ? Hx. unfold remove_liabilities in Hx. apply assert_ok in Hx as [Hx _]. apply negb_true_iff in Hx. by apply Z.eqb_neq.
Qed.

Lemma left_at w a u dec pct (i : Z) :
  get_coll (left_with w a u dec pct) i = get_coll (positions w a u) i - cdiv (get_coll (positions w a u) i * lot_share w a u dec pct) (10 ^ dec) /\
  get_liab (left_with w a u dec pct) i = get_liab (positions w a u) i - cdiv (get_liab (positions w a u) i * bid_share dec pct) (10 ^ dec) /\
  po_sup (left_with w a u dec pct) = po_sup (positions w a u).
Proof.
  unfold get_coll, get_liab, getz. cbn [left_with po_coll po_liab po_sup]. unfold left_with. simpl. rewrite !lookup_fmap.
  destruct (po_coll (positions w a u) !! i), (po_liab (positions w a u) !! i); simpl; repeat split; try done; unfold cdiv; simpl; rewrite Zdiv_0_l; done.
Qed.
Lemma share_bounds dec pct : 0 <= dec -> 0 <= pct <= 100 -> 0 <= bid_share dec pct <= 10 ^ dec.
Proof. intros Hd Hp. assert (0 < 10 ^ dec) by (by apply Z.pow_pos_nonneg). unfold bid_share. split; [apply Z.div_pos; nia|]. apply Z.div_le_upper_bound; nia. Qed.
Lemma part_le v s S : 0 < S -> 0 <= s <= S -> 0 <= v -> 0 <= cdiv (v * s) S <= v.
Proof. intros HS Hs Hv. split; [apply cdiv_nonneg; nia|]. apply cdiv_le_iff; nia. Qed.

(** ** C16: the lot; C67: what opening a liquidation auction takes *)
Theorem C67_liquidation_needs : forall w sg a u pct out w',
  reachable w -> exec w (OPool sg a (PNewLiq u pct)) = Ok (out, w') -> prices_nonneg w a ->
  exists au dec, out = OutAuction au /\ o_dec (x_orc (w_ext w)) !! pc_oracle (ps_config (pool w a)) = Some dec /\
    u <> a /\ u <> ps_backstop (pool w a) /\ auction w a 0 u = None /\ 1 <= pct <= 100 /\
    0 < coll_worth w a u /\ 0 < debt_worth w a u /\ coll_weighted w a u <= debt_weighted w a u /\
    (* the lot and the bid *)
    (forall r, amount_at (au_lot au) r = cdiv (collateral (account w a u) r * lot_share w a u dec pct) (10 ^ dec)) /\
    (forall r, amount_at (au_bid au) r = cdiv (owed (account w a u) r * bid_share dec pct) (10 ^ dec)) /\
    (* all debts at once only if all the collateral pays for them, else what is left must be healthy, but not too much *)
    (if pct =? 100 then coll_worth w a u <= lot_worth w a u dec pct
     else 0 < bid_share dec pct /\ 0 < lot_share w a u dec pct /\ in_band w a dec (left_with w a u dec pct)).
Proof.
  intros w sg a u pct out w' Hr H Hpr. destruct (tx_good _ _ _ _ _ _ Hr H) as [Hi G]; [done|].
  apply exec_opool in H as (Hty & _ & _ & px & H & _ & _ & _). simpl in H. rewrite Hi in H. simpl in H. simpl in Hty. apply in_u64_iff in Hty.
  apply bind_ok in H as ([au p1] & E & H). injection H as <- <-.
  pose proof E as Esim. apply create_liq_sim in Esim; [|exact G|lia]. cbv zeta in Esim.
  destruct Esim as (N1 & N2 & Hno & Hpct & Hb & Hel & _ & (dec & wp0 & Hdec & Hd0 & _ & _ & Hlf & _ & _) & Hpart & _).
  change (get_pos (pool w a) u) with (positions w a u) in *. change (c_now (ctx w sg)) with (w_now w) in *.
  assert (0 < 10 ^ dec) as Hs by (by apply Z.pow_pos_nonneg).
  assert (forall k i, 0 <= getz (get_k k (positions w a u)) i) as Hpos by (intros k i; by apply pos_ok_getz, G).
  destruct (raw_bounds (w_now w) (pool w a) (w_ext w) (positions w a u) G Hpos Hpr Hlf) as [B1 B2].
  destruct (eff_nonneg (w_now w) (pool w a) (w_ext w) (positions w a u) G (fun k i _ _ => Hpos k _) Hpr Hlf) as [B3 B4].
  unfold create_liquidation in E. apply assert_ok in E as [_ E]. apply bind_ok in E as ([au0 p2] & E & E'). injection E' as <- <-.
  unfold create_user_liq in E. apply assert_ok in E as [_ E]. apply assert_ok in E as [_ E]. apply bind_ok in E as (blk & _ & E).
  change (get_pos (pool w a) u) with (positions w a u) in E. change (c_now (ctx w sg)) with (w_now w) in E.
  apply bind_ok in E as ([d ch1] & Epd & E). apply assert_ok in E as [_ E].
  apply bind_ok in E as ([[ps ww] wp] & Ele & E). apply bind_ok in E as (lot & El & E). apply bind_ok in E as (bid & Ebd & E).
  eapply (position_data_spec (w_now w) (pool w a) (w_ext w) (pool_load (pool w a)) (positions w a u) ∅) in Epd as Es; [|apply pool_load_cwf|done|apply G|apply pool_load_pwf|exact Hpos].
  destruct Es as (_ & _ & _ & D1 & D2 & D3 & D4 & (dec' & Hdec' & D5) & _). assert (dec' = dec) as -> by congruence.
  assert (flush (pool w a) (pool_load (pool w a)) ∅ = pool w a) as Hfl. { rewrite flush_fresh. rewrite (left_id_L ∅ (∪)). by destruct (pool w a). }
  rewrite Hfl in D1, D2, D3, D4. clear Hfl.
  change (eff_coll _ _ _ _) with (coll_weighted w a u) in D1, B1, B3, Hel. change (raw_coll _ _ _ _) with (coll_worth w a u) in D2, B1.
  change (eff_liab _ _ _ _) with (debt_weighted w a u) in D3, B2, B4, Hel. change (raw_liab _ _ _ _) with (debt_worth w a u) in D4, B2.
  destruct d as [Cb Cr Lb Lr sc]. cbn [hd_coll_base hd_coll_raw hd_liab_base hd_liab_raw hd_scalar] in D1, D2, D3, D4, D5. subst Cb Cr Lb Lr sc.
  apply estimate_exact in Ele as (P1 & P2 & Eps & Ew & Ewp); [|lia|done|lia|lia].
  assert (ps = bid_share dec pct) as -> by done.
  assert (ww = lot_worth w a u dec pct) as -> by done.
  assert (wp = lot_share w a u dec pct) as -> by done. clear Eps Ew Ewp.
  cbn [hd_scalar hd_coll_raw] in El, Ebd, E.
  apply quote_asset in El as [L1 L2]; [|apply G|done]. apply quote_asset in Ebd as [Q1 Q2]; [|apply G|done].
  assert (0 <= lot_share w a u dec pct <= 10 ^ dec) as Hls.
  { unfold lot_share. split; [|lia]. apply Z.min_glb; [lia|]. apply cdiv_nonneg; [done|]. apply Z.mul_nonneg_nonneg; [|lia].
    assert (0 <= premium w a u dec) as Hpre.
    { unfold premium. assert (0 <= coll_weighted w a u * 10 ^ dec / coll_worth w a u <= 10 ^ dec) as Hcf. { split; [apply Z.div_pos; nia|]. apply Z.div_le_upper_bound; nia. }
      assert (10 ^ dec <= debt_weighted w a u * 10 ^ dec / debt_worth w a u) as Hlf1. { apply Z.div_le_lower_bound; nia. }
      assert (cdiv (coll_weighted w a u * 10 ^ dec / coll_worth w a u * 10 ^ dec) (debt_weighted w a u * 10 ^ dec / debt_worth w a u) <= 10 ^ dec) as Hq by (apply cdiv_le_iff; nia).
      assert (0 <= cdiv ((10 ^ dec - cdiv (coll_weighted w a u * 10 ^ dec / coll_worth w a u * 10 ^ dec) (debt_weighted w a u * 10 ^ dec / debt_worth w a u)) * 10 ^ dec) (2 * 10 ^ dec)) by (apply cdiv_nonneg; nia).
      lia. }
    pose proof (share_bounds dec pct Hd0 ltac:(lia)) as Hbs.
    unfold lot_worth. apply Z.div_pos; [|lia]. apply Z.mul_nonneg_nonneg; [|done]. apply Z.div_pos; [|lia]. apply Z.mul_nonneg_nonneg; lia. }
  pose proof (share_bounds dec pct Hd0 ltac:(lia)) as Hbs.
  assert (au0 = mkAuction bid lot blk) as ->.
  { destruct (pct =? 100); [apply assert_ok in E as [_ E]; by injection E as <- _|]. apply bind_ok in E as ([[? ?] ?] & _ & E). apply bind_ok in E as ([? ?] & _ & E).
    apply bind_ok in E as (? & _ & E). apply assert_ok in E as [_ E]. apply bind_ok in E as (? & _ & E). apply assert_ok in E as [_ E]. by injection E as <- _. }
  assert (forall r, r ∉ reserve_list w a -> owed (account w a u) r = 0 /\ collateral (account w a u) r = 0) as Hnl.
  { intros r Hr0. split; [destruct (Z.eq_dec (owed (account w a u) r) 0) as [|Hn]; [done|]; destruct (account_listed w a KLiab u r G Hn) as [i Hx]
      |destruct (Z.eq_dec (collateral (account w a u) r) 0) as [|Hn]; [done|]; destruct (account_listed w a KColl u r G Hn) as [i Hx]];
      exfalso; apply Hr0; by eapply elem_of_list_lookup_2. }
  assert (forall r, amount_at lot r = cdiv (collateral (account w a u) r * lot_share w a u dec pct) (10 ^ dec) /\ amount_at bid r = cdiv (owed (account w a u) r * bid_share dec pct) (10 ^ dec)) as Hamt.
  { intros r. destruct (decide (r ∈ reserve_list w a)) as [Hin|Hin].
    - apply elem_of_list_lookup in Hin as [i Hin]. destruct (owed_at w a u i r G Hin) as (O1 & O2 & _). rewrite O1, O2.
      unfold amount_at. rewrite (L1 i r Hin), (Q1 i r Hin). unfold get_liab, get_coll, getz.
      destruct (po_liab (positions w a u) !! Z.of_nat i), (po_coll (positions w a u) !! Z.of_nat i); simpl; split; try done; unfold cdiv; simpl; rewrite Zdiv_0_l; done.
    - destruct (Hnl r Hin) as [-> ->]. unfold amount_at. rewrite L2, Q2 by done. simpl. unfold cdiv. simpl. rewrite Zdiv_0_l. done. }
  exists (mkAuction bid lot blk), dec. split; [done|]. split; [done|]. split; [done|]. split; [done|]. split; [exact Hno|]. split; [done|]. split; [done|]. split; [done|]. split; [done|].
  cbn [au_lot au_bid]. split; [intros r; apply Hamt|]. split; [intros r; apply Hamt|].
  destruct (Z.eqb_spec pct 100) as [->|Hp100].
  { apply assert_ok in E as [E _]. apply negb_true_iff, Z.ltb_ge in E. exact E. }
  apply bind_ok in E as ([[p3 ch3] pos3] & Erm & _). apply rm_nonzero in Erm as [Z1 Z2].
  destruct (coll_some (w_now w) (pool w a) (w_ext w) (positions w a u)) as (i & r & Hlr & Hci). { change (raw_coll _ _ _ _) with (coll_worth w a u). lia. }
  destruct (liab_some (w_now w) (pool w a) (w_ext w) (positions w a u)) as (j & s & Hls' & Hlj). { change (raw_liab _ _ _ _) with (debt_worth w a u). lia. }
  assert (0 < lot_share w a u dec pct) as Hls0.
  { destruct (Z.eq_dec (lot_share w a u dec pct) 0) as [Hz|]; [|lia]. exfalso. pose proof (L1 i r Hlr) as Hx. unfold get_coll, getz in Hci. destruct (po_coll (positions w a u) !! Z.of_nat i) as [v|]; [|done].
    apply (Z1 r _ Hx). rewrite Hz, Z.mul_0_r. done. }
  assert (0 < bid_share dec pct) as Hbs0.
  { destruct (Z.eq_dec (bid_share dec pct) 0) as [Hz|]; [|lia]. exfalso. pose proof (Q1 j s Hls') as Hx. unfold get_liab, getz in Hlj. destruct (po_liab (positions w a u) !! Z.of_nat j) as [v|]; [|done].
    apply (Z2 s _ Hx). rewrite Hz, Z.mul_0_r. done. }
  split; [done|]. split; [done|].
  destruct (Hpart ltac:(lia)) as (pos' & Hleft & Hmost & Hleast). cbn [au_lot au_bid] in Hleft.
  assert (forall (i : nat) r, ps_list (pool w a) !! i = Some r -> get_coll pos' (Z.of_nat i) = get_coll (left_with w a u dec pct) (Z.of_nat i) /\ get_liab pos' (Z.of_nat i) = get_liab (left_with w a u dec pct) (Z.of_nat i)) as Hsame.
  { intros k q Hk. destruct (Hleft k q Hk) as (E1 & E2 & _). destruct (left_at w a u dec pct (Z.of_nat k)) as (F1 & F2 & _). rewrite E1, E2, F1, F2.
    destruct (Hamt q) as [A1 A2]. destruct (owed_at w a u k q G Hk) as (O1 & O2 & _). rewrite O2 in A1. rewrite O1 in A2.
    change (getz lot q) with (amount_at lot q). change (getz bid q) with (amount_at bid q). rewrite A1, A2. done. }
  assert (forall k (i : nat) r, ps_list (pool w a) !! i = Some r -> 0 <= getz (get_k k pos') (Z.of_nat i)) as Hpos'.
  { intros k i0 q Hk. destruct (Hleft i0 q Hk) as (_ & _ & E3). destruct (Hsame i0 q Hk) as [E1 E2]. destruct (left_at w a u dec pct (Z.of_nat i0)) as (F1 & F2 & _). rewrite F1 in E1. rewrite F2 in E2.
    pose proof (Hpos KColl (Z.of_nat i0)) as X1. pose proof (Hpos KLiab (Z.of_nat i0)) as X2. pose proof (Hpos KSup (Z.of_nat i0)) as X3. cbn [get_k] in X1, X2, X3.
    pose proof (part_le _ _ (10 ^ dec) Hs Hls X1) as Y1. pose proof (part_le _ _ (10 ^ dec) Hs Hbs X2) as Y2.
    unfold get_coll, get_liab, get_sup in E1, E2, E3. destruct k; cbn [get_k]; [rewrite E2|rewrite E1|rewrite E3]; [lia|lia|exact X3]. }
  destruct (eff_nonneg (w_now w) (pool w a) (w_ext w) pos' G Hpos' Hpr) as [V1 V2].
  { intros i0 q Hk Hn. apply (Hlf i0 q Hk). intros Hz. apply Hn. destruct (Hsame i0 q Hk) as [_ ->]. destruct (left_at w a u dec pct (Z.of_nat i0)) as (_ & -> & _). rewrite Hz.
    rewrite Z.mul_0_l. unfold cdiv. simpl. by rewrite Zdiv_0_l. }
  destruct (values_ext (w_now w) (pool w a) (w_ext w) _ _ Hsame) as (W1 & _ & W3 & _).
  unfold in_band. rewrite <- W1, <- W3. split; [by apply hf_ineq|by apply hf_upper].
Qed.
