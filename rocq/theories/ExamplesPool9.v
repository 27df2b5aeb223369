(** * Concrete cases for C67 *)
From Verif Require Import Base Types Token Emitter Factory Backstop PoolReserve PoolUser PoolHealth
  PoolAuction PoolSubmit PoolEmis PoolAdmin World Facts XMove Spec PoolFrame PoolCfg PoolHF PoolAccrue PoolTrace PoolInv PoolReach PropsAdmin PoolEmisInv BackMoves PropsBackstop PropsBackstop5 PropsPool1 PropsPool2 PropsPool3
  PropsPool4 PropsPool5 PropsPool6 PropsPool7 PropsPool9 PropsPool10 PoolLive PropsPool13 PropsPool15 PropsPool16 PropsPool17 PropsPool20 PropsPool22 PropsPool23 PropsPool24 PropsPool25 PropsPool26 Scenario ScenarioPool ExamplesPool ExamplesPool2 ExamplesPool3
  ExamplesPool5 ExamplesPool6 ExamplesPool7 ExamplesPool8.

(** ** Liquidations *)
Definition comp_b (w : World) (a u : Addr) (dec : Z) : bool :=
  all_valued_b w a dec (positions w a u) && (2 * debt_weighted w a u * 10 ^ dec <=? i128_max) &&
  forallb (fun r => (collateral (account w a u) r * 10 ^ dec <=? i128_max) && (owed (account w a u) r * 10 ^ dec <=? i128_max) &&
    emis_fits_b (w_now w) (pool w a) u (index_of w a r * 2 + 1) && emis_fits_b (w_now w) (pool w a) u (index_of w a r * 2) &&
    match reserve w a r with Some d => (rd_b_supply d <=? i128_max) && (rd_d_supply d <=? i128_max) | None => true end) (reserve_list w a).
Lemma comp_dec w a u dec : reachable w -> ps_init (pool w a) = true -> comp_b w a u dec = true -> liq_computable w a u dec.
Proof.
  intros Hr Hi H. unfold comp_b in H. apply andb_true_iff in H as [H HA]. apply andb_true_iff in H as [H1 H2%Z.leb_le].
  split; [by apply all_valued_dec|]. split; [done|]. intros r Hn. pose proof (reachable_good w a Hr Hi) as G.
  assert (r ∈ reserve_list w a) as Hin.
  { destruct Hn as [Hn|Hn]; [destruct (account_listed w a KColl u r G Hn) as [i Hx]|destruct (account_listed w a KLiab u r G Hn) as [i Hx]]; by eapply elem_of_list_lookup_2. }
  rewrite forallb_forall in HA. specialize (HA r). rewrite <- elem_of_list_In in HA. specialize (HA Hin). repeat (apply andb_true_iff in HA as [HA ?]). rewrite ?Z.leb_le in *.
  split; [done|]. split; [done|]. split; [by apply emis_fits_dec|]. split; [by apply emis_fits_dec|].
  intros d Hd. match goal with H : match reserve w a r with _ => _ end = true |- _ => rewrite Hd in H; by apply andb_true_iff in H as [?%Z.leb_le ?%Z.leb_le] end.
Qed.
Definition band_b (w : World) (a : Addr) (dec : Z) (pos : Positions) : bool :=
  let C := eff_coll (w_now w) (pool w a) (w_ext w) pos in let L := eff_liab (w_now w) (pool w a) (w_ext w) pos in
  (L * (10 ^ dec * 10300000 / 10000000) <=? C * 10 ^ dec) && (C * 10 ^ dec <? L * (cdiv (10 ^ dec * 11500000) 10000000 + 1)).
Definition cond_b (w : World) (a u : Addr) (dec pct : Z) : bool :=
  negb (u =? a) && negb (u =? ps_backstop (pool w a)) && match auction w a 0 u with None => true | _ => false end && (1 <=? pct) && (pct <=? 100) &&
  (0 <? coll_worth w a u) && (0 <? debt_worth w a u) && (coll_weighted w a u <=? debt_weighted w a u) &&
  (if pct =? 100 then coll_worth w a u <=? lot_worth w a u dec pct
   else (0 <? bid_share dec pct) && (0 <? lot_share w a u dec pct) && band_b w a dec (left_with w a u dec pct)).
Lemma liq_iff w a u dec pct : reachable w -> ps_init (pool w a) = true -> (0 <=? w_seq w) && (w_seq w <? u32_max) = true -> comp_b w a u dec = true ->
  succeeds w (OPool [] a (PNewLiq u pct)) <-> cond_b w a u dec pct = true.
Proof.
  intros Hr Hi Hseq Hc. apply andb_true_iff in Hseq as [Hs1%Z.leb_le Hs2%Z.ltb_lt]. apply comp_dec in Hc; [|done|done].
  rewrite (C67_liquidation_auction w [] a u pct dec Hr eq_refl Hi ltac:(done) Hc). unfold cond_b. rewrite !andb_true_iff, !negb_true_iff, !Z.eqb_neq, !Z.leb_le, !Z.ltb_lt.
  assert ((if pct =? 100 then coll_worth w a u <=? lot_worth w a u dec pct else (0 <? bid_share dec pct) && (0 <? lot_share w a u dec pct) && band_b w a dec (left_with w a u dec pct)) = true <->
    (if pct =? 100 then coll_worth w a u <= lot_worth w a u dec pct else 0 < bid_share dec pct /\ 0 < lot_share w a u dec pct /\ in_band w a dec (left_with w a u dec pct))) as ->.
  { destruct (pct =? 100); [apply Z.leb_le|]. unfold band_b, in_band. rewrite !andb_true_iff, !Z.leb_le, !Z.ltb_lt. tauto. }
  destruct (auction w a 0 u); intuition discriminate.
Qed.
(** alice, after BBB rose to 1.3, can be liquidated by 59 to 69 percent; after the crash of her collateral as a whole only; before, not at all *)
Example ex_C67_liquidation :
  (succeeds (run sc0 ops_year) (OPool [] P1 (PNewLiq alice 59)) /\ succeeds (run sc0 ops_year) (OPool [] P1 (PNewLiq alice 69)) /\
   ~ succeeds (run sc0 ops_year) (OPool [] P1 (PNewLiq alice 58)) /\ ~ succeeds (run sc0 ops_year) (OPool [] P1 (PNewLiq alice 70)) /\
   ~ succeeds (run sc0 ops_year) (OPool [] P1 (PNewLiq alice 100))) /\
  (succeeds (run sc0 ops_crash) (OPool [] P1 (PNewLiq alice 100)) /\ ~ succeeds (run sc0 ops_crash) (OPool [] P1 (PNewLiq alice 99))) /\
  ~ succeeds (run sc0 ops_loan) (OPool [] P1 (PNewLiq alice 50)).
Proof.
  assert (forall l, l = ops_year \/ l = ops_crash \/ l = ops_loan -> forall pct, succeeds (run sc0 l) (OPool [] P1 (PNewLiq alice pct)) <-> cond_b (run sc0 l) P1 alice 7 pct = true) as H.
  { intros l Hl. assert (reachable (run sc0 l)) as Hr by apply sc_reachable.
    assert (ps_init (pool (run sc0 l) P1) = true) as H1 by (destruct Hl as [->|[->| ->]]; by vm_compute).
    assert ((0 <=? w_seq (run sc0 l)) && (w_seq (run sc0 l) <? u32_max) = true) as H2 by (destruct Hl as [->|[->| ->]]; by vm_compute).
    assert (comp_b (run sc0 l) P1 alice 7 = true) as H3 by (destruct Hl as [->|[->| ->]]; by vm_compute).
    clear Hl. generalize dependent (run sc0 l). intros w Hr H1 H2 H3 pct. by apply liq_iff. }
  assert (forallb (fun e => Bool.eqb (cond_b (run sc0 ops_year) P1 alice 7 e.1) e.2) [(59, true); (69, true); (58, false); (70, false); (100, false)] = true) as H1 by by vm_compute.
  assert (cond_b (run sc0 ops_crash) P1 alice 7 100 = true) as H2 by by vm_compute.
  assert (cond_b (run sc0 ops_crash) P1 alice 7 99 = false) as H3 by by vm_compute.
  assert (cond_b (run sc0 ops_loan) P1 alice 7 50 = false) as H4 by by vm_compute.
  pose proof (H ops_year ltac:(by left)) as HY. pose proof (H ops_crash ltac:(right; by left)) as HC. pose proof (H ops_loan ltac:(right; by right)) as HL. clear H.
  generalize dependent (run sc0 ops_year). generalize dependent (run sc0 ops_crash). generalize dependent (run sc0 ops_loan). intros w1 H4 HL w2 H2 H3 HC w3 H1 HY.
  cbn [forallb fst snd] in H1. repeat (apply andb_true_iff in H1 as [?%Bool.eqb_prop H1]). rewrite !HY, !HC, !HL. split; [|split; [split; congruence|congruence]]. repeat split; congruence.
Qed.

(** ** Interest *)
Definition token_b (w : World) (a : Addr) (dec : Z) : bool :=
  ExamplesPool8.valued_b w a && (dec <=? 18) &&
  match bs_lpval (x_bs (w_ext w)) with Some (vb, vu) => backstop_tokens w a * vu / 10000000 * 10 ^ dec * 50000000 <=? i128_max | None => true end.
Lemma token_dec w a dec : token_b w a dec = true -> token_computable w a dec.
Proof.
  unfold token_b, ExamplesPool8.valued_b, token_computable, backstop_valued. intros H. apply andb_true_iff in H as [H H3]. apply andb_true_iff in H as [H H2%Z.leb_le].
  destruct (bs_lpval (x_bs (w_ext w))) as [[vb vu]|]; [|done]. repeat (apply andb_true_iff in H as [H ?]). rewrite ?Z.leb_le in *.
  split; [by exists vb, vu|]. split; [done|]. by intros ? ? [= <- <-].
Qed.
Definition orc_b (w : World) (a r : Addr) : bool :=
  match o_price (x_orc (w_ext w)) !! (pc_oracle (ps_config (pool w a)), r) with Some (v, t) => (0 <=? v) && (0 <=? t) && (t + 86400 <=? u64_max) | None => true end.
Lemma orc_dec w a r : orc_b w a r = true ->
  forall v t, o_price (x_orc (w_ext w)) !! (pc_oracle (ps_config (pool w a)), r) = Some (v, t) -> 0 <= v /\ 0 <= t /\ t + 86400 <= u64_max.
Proof. unfold orc_b. intros H v t E. rewrite E in H. repeat (apply andb_true_iff in H as [H ?]). rewrite ?Z.leb_le in *. done. Qed.
Definition today_b (w : World) (a r : Addr) : bool :=
  match o_price (x_orc (w_ext w)) !! (pc_oracle (ps_config (pool w a)), r) with Some (v, t) => w_now w <=? t + 86400 | None => false end.
Lemma today_dec w a r : today_b w a r = true <-> price_of_today w a r.
Proof.
  unfold today_b, price_of_today. change (24 * 60 * 60) with 86400. destruct (o_price (x_orc (w_ext w)) !! _) as [[v t]|].
  - rewrite Z.leb_le. split; [intros; by exists v, t|]. intros (v' & t' & [= <- <-] & H). done.
  - split; [done|]. by intros (? & ? & ? & _).
Qed.
Definition env_b (w : World) (a : Addr) (dec : Z) : bool :=
  ps_init (pool w a) && (ps_backstop (pool w a) =? bs_addr) && bs_init (x_bs (w_ext w)) && (0 <=? w_seq w) && (w_seq w <? u32_max) &&
  match o_dec (x_orc (w_ext w)) !! pc_oracle (ps_config (pool w a)) with Some d => d =? dec | None => false end && token_b w a dec.
Definition int_hyp_b (w : World) (a : Addr) (assets : list Addr) (dec : Z) : bool :=
  env_b w a dec && forallb (fun r => accruable_b w a r && orc_b w a r && (price_of (pool w a) (w_ext w) r * credit_now w a r <=? i128_max)) assets &&
  (sumz (credit_value w a) assets * 14000000 <=? i128_max).
Definition int_cond_b (w : World) (a : Addr) (assets : list Addr) (dec : Z) : bool :=
  match auction w a 2 bs_addr with None => true | _ => false end &&
  forallb (fun r => match reserve w a r with Some _ => true | None => false end && ((credit_now w a r <=? 0) || today_b w a r)) assets &&
  (200 * 10 ^ dec <? sumz (credit_value w a) assets) && (0 <? token_value w a dec).
Lemma int_iff w a assets dec : reachable w -> int_hyp_b w a assets dec = true ->
  succeeds w (OPool [] a (PNewInterest assets)) <-> int_cond_b w a assets dec = true.
Proof.
  intros Hr H. unfold int_hyp_b, env_b in H. repeat (apply andb_true_iff in H as [H ?]). rewrite ?Z.leb_le, ?Z.ltb_lt, ?Z.eqb_eq in *.
  destruct (o_dec _ !! _) as [d|] eqn:Hd; [|done]. match goal with H : (d =? dec) = true |- _ => apply Z.eqb_eq in H; subst d end.
  match goal with H : forallb _ assets = true |- _ => rewrite forallb_forall in H; rename H into HA end.
  rewrite (C67_interest_auction w [] a assets dec Hr eq_refl); try done; [|by apply token_dec|].
  2: { intros r Hin _. specialize (HA r ltac:(by apply elem_of_list_In)). repeat (apply andb_true_iff in HA as [HA ?]). split; [by apply accruable_dec|]. split; [by apply orc_dec|]. by apply Z.leb_le. }
  unfold int_cond_b. rewrite !andb_true_iff, !Z.ltb_lt, forallb_forall.
  assert ((forall r, In r assets -> match reserve w a r with Some _ => true | None => false end && ((credit_now w a r <=? 0) || today_b w a r) = true) <->
    (forall r, r ∈ assets -> is_Some (reserve w a r) /\ (0 < credit_now w a r -> price_of_today w a r))) as ->.
  { split; intros HF r Hin; apply elem_of_list_In in Hin; specialize (HF r Hin).
    - apply andb_true_iff in HF as [HF1 HF2]. split; [destruct (reserve w a r); [eauto|done]|]. intros Hc. apply orb_true_iff in HF2 as [HF2%Z.leb_le|HF2]; [lia|]. by apply today_dec.
    - destruct HF as [[? ->] HF]. destruct (Z.leb_spec (credit_now w a r) 0); [done|]. cbn [orb andb]. apply today_dec. auto. }
  destruct (auction w a 2 bs_addr); intuition discriminate.
Qed.
(** an interest auction for BBB can be opened after a year at a price of 7; not for AAA alone, which nobody borrows, nor
    at a price of 1.3, nor with the price of yesterday, nor while there is one *)
Example ex_C67_interest :
  succeeds (run sc0 ops_rich) (OPool [] P1 (PNewInterest [BBB])) /\ succeeds (run sc0 ops_rich) (OPool [] P1 (PNewInterest [AAA; BBB])) /\
  ~ succeeds (run sc0 ops_rich) (OPool [] P1 (PNewInterest [AAA])) /\ ~ succeeds (run sc0 ops_year) (OPool [] P1 (PNewInterest [BBB])) /\
  ~ succeeds (run sc0 (ops_rich ++ [OTick 86401 1])) (OPool [] P1 (PNewInterest [BBB])) /\
  ~ succeeds (run sc0 ops_int) (OPool [] P1 (PNewInterest [BBB])).
Proof.
  assert (forall l assets b, reachable (run sc0 l) -> int_hyp_b (run sc0 l) P1 assets 7 = true -> int_cond_b (run sc0 l) P1 assets 7 = b ->
    if b then succeeds (run sc0 l) (OPool [] P1 (PNewInterest assets)) else ~ succeeds (run sc0 l) (OPool [] P1 (PNewInterest assets))) as H.
  { intros l assets b. generalize (run sc0 l). intros w Hr H1 H2. pose proof (int_iff w P1 assets 7 Hr H1) as Hx. destruct b; rewrite Hx; congruence. }
  split; [apply (H ops_rich [BBB] true)|split; [apply (H ops_rich [AAA; BBB] true)|split; [apply (H ops_rich [AAA] false)|split; [apply (H ops_year [BBB] false)|split; [apply (H (ops_rich ++ [OTick 86401 1]) [BBB] false)|apply (H ops_int [BBB] false)]]]]];
    first [apply sc_reachable|by vm_compute].
Qed.

(** ** Bad debt *)
Definition bd_hyp_b (w : World) (a : Addr) (dec : Z) : bool :=
  env_b w a dec && forallb (fun r => (owed (account w a bs_addr) r =? 0) || (accruable_b w a r && orc_b w a r && (owed (account w a bs_addr) r * d_rate_now w a r <=? i128_max) &&
    (price_of (pool w a) (w_ext w) r * cdiv (owed (account w a bs_addr) r * d_rate_now w a r) 1000000000 <=? i128_max))) (reserve_list w a) &&
  (sumz (debt_value w a bs_addr) (reserve_list w a) * 14000000 <=? i128_max).
Definition bd_cond_b (w : World) (a : Addr) (dec : Z) : bool :=
  match auction w a 1 bs_addr with None => true | _ => false end && forallb (fun r => (owed (account w a bs_addr) r =? 0) || today_b w a r) (reserve_list w a) &&
  (0 <? sumz (debt_value w a bs_addr) (reserve_list w a)) && (0 <? token_value w a dec).
Lemma bd_iff w a dec : reachable w -> bd_hyp_b w a dec = true -> succeeds w (OPool [] a PNewBadDebt) <-> bd_cond_b w a dec = true.
Proof.
  intros Hr H. unfold bd_hyp_b, env_b in H. repeat (apply andb_true_iff in H as [H ?]). rewrite ?Z.leb_le, ?Z.ltb_lt, ?Z.eqb_eq in *.
  destruct (o_dec _ !! _) as [d|] eqn:Hd; [|done]. match goal with H : (d =? dec) = true |- _ => apply Z.eqb_eq in H; subst d end.
  match goal with H : forallb _ (reserve_list w a) = true |- _ => rewrite forallb_forall in H; rename H into HA end.
  pose proof (reachable_good w a Hr H) as G.
  assert (forall r, owed (account w a bs_addr) r <> 0 -> In r (reserve_list w a)) as Hin.
  { intros r Hn. apply elem_of_list_In. destruct (account_listed w a KLiab bs_addr r G Hn) as [i Hx]. by eapply elem_of_list_lookup_2. }
  rewrite (C67_bad_debt_auction w [] a dec Hr eq_refl); try done; [|by apply token_dec|].
  2: { intros r Hn. specialize (HA r (Hin r Hn)). apply orb_true_iff in HA as [HA%Z.eqb_eq|HA]; [done|]. repeat (apply andb_true_iff in HA as [HA ?]). rewrite ?Z.leb_le in *.
       split; [by apply accruable_dec|]. split; [by apply orc_dec|]. done. }
  unfold bd_cond_b. rewrite !andb_true_iff, !Z.ltb_lt, forallb_forall.
  assert ((forall r, In r (reserve_list w a) -> (owed (account w a bs_addr) r =? 0) || today_b w a r = true) <-> (forall r, owed (account w a bs_addr) r <> 0 -> price_of_today w a r)) as ->.
  { split; intros HF r Hx.
    - specialize (HF r (Hin r Hx)). apply orb_true_iff in HF as [HF%Z.eqb_eq|HF]; [done|]. by apply today_dec.
    - destruct (Z.eqb_spec (owed (account w a bs_addr) r) 0); [done|]. cbn [orb]. apply today_dec. auto. }
  destruct (auction w a 1 bs_addr); intuition discriminate.
Qed.
(** after alice's liquidation the bad debt can be auctioned; not before it, not a day later without a new price, not while it is, and
    not after the last depositor has left the backstop *)
Definition ops_empty : list Op := ops_baddebt ++
  [OExt [alice] (BQueue alice P1 500000000000); OTick 1814400 100000; OExt [alice] (BWithdraw alice P1 500000000000);
   OOracle (orc0 (t0 + 86400 + 31536000 + 1814400 + 1900) 1000000 13000000)].
Example ex_C67_bad_debt :
  succeeds (run sc0 ops_baddebt) (OPool [] P1 PNewBadDebt) /\ ~ succeeds (run sc0 ops_crash) (OPool [] P1 PNewBadDebt) /\
  ~ succeeds (run sc0 (ops_baddebt ++ [OTick 86400 1])) (OPool [] P1 PNewBadDebt) /\ ~ succeeds (run sc0 ops_bdwait) (OPool [] P1 PNewBadDebt) /\
  (0 < owed (account (run sc0 ops_empty) P1 bs_addr) BBB /\ ~ succeeds (run sc0 ops_empty) (OPool [] P1 PNewBadDebt)).
Proof.
  assert (forall l b, reachable (run sc0 l) -> bd_hyp_b (run sc0 l) P1 7 = true -> bd_cond_b (run sc0 l) P1 7 = b ->
    if b then succeeds (run sc0 l) (OPool [] P1 PNewBadDebt) else ~ succeeds (run sc0 l) (OPool [] P1 PNewBadDebt)) as H.
  { intros l b. generalize (run sc0 l). intros w Hr H1 H2. pose proof (bd_iff w P1 7 Hr H1) as Hx. destruct b; rewrite Hx; congruence. }
  split; [apply (H ops_baddebt true)|split; [apply (H ops_crash false)|split; [apply (H (ops_baddebt ++ [OTick 86400 1]) false)|split; [apply (H ops_bdwait false)|split; [|apply (H ops_empty false)]]]]];
    first [apply sc_reachable|by vm_compute].
Qed.
