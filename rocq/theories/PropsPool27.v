(** * What a liquidation costs and what it restores: C68 *)
From Verif Require Import Base Types Token Emitter Factory Backstop PoolReserve PoolUser PoolHealth
  PoolAuction PoolSubmit PoolEmis PoolAdmin World Facts XMove Spec PoolFrame PoolCfg PoolAccrue PoolTrace PoolInv AuctionFacts
  PoolSim PoolReq PoolHF PoolOps PoolLiq PoolReach PoolTx PoolEmisInv FrameFacts PropsAdmin BackMoves BackInv PropsBackstop PropsBackstop2 PropsBackstop5
  PropsPool1 PropsPool2 PropsPool3 PropsPool4 PropsPool5 PropsPool6 PropsPool7 PropsPool9 PropsPool10 PoolLive PropsPool13 PropsPool15 PropsPool16 PropsPool17 PropsPool20 PropsPool22 PropsPool23 PropsPool24 PropsPool25 PropsPool26.

(** ** Specification *)
(** the oracle value of the lot and of the bid of an auction, with the prices and rates of state [w] *)
Definition lot_value (w : World) (a : Addr) (au : Auction) : Z :=
  sumz (fun r => coll_raw1 (w_now w) (pool w a) (w_ext w) r (amount_at (au_lot au) r)) (reserve_list w a).
Definition bid_value (w : World) (a : Addr) (au : Auction) : Z :=
  sumz (fun r => liab_raw1 (w_now w) (pool w a) (w_ext w) r (amount_at (au_bid au) r)) (reserve_list w a).
(** the value of the smallest units of the assets for which [f] is not 0: of the asset itself, of its bToken and its dToken;
    amounts and values are rounded to these *)
Definition asset_unit (w : World) (a r : Addr) : Z := cdiv (price_of (pool w a) (w_ext w) r) (10 ^ rc_decimals (cfg_of (pool w a) r)).
Definition b_unit (w : World) (a r : Addr) : Z := cdiv (price_of (pool w a) (w_ext w) r * b_rate_now w a r) (1000000000 * 10 ^ rc_decimals (cfg_of (pool w a) r)).
Definition d_unit (w : World) (a r : Addr) : Z := cdiv (price_of (pool w a) (w_ext w) r * d_rate_now w a r) (1000000000 * 10 ^ rc_decimals (cfg_of (pool w a) r)).
Definition lot_error (w : World) (a u : Addr) : Z :=
  sumz (fun r => if collateral (account w a u) r =? 0 then 0 else 1 + asset_unit w a r + b_unit w a r) (reserve_list w a).
Definition bid_error (w : World) (a u : Addr) : Z :=
  sumz (fun r => if owed (account w a u) r =? 0 then 0 else 1 + asset_unit w a r + d_unit w a r) (reserve_list w a).

(** ** Lemmas *)
(** values of parts, in exact arithmetic *)
Lemma coll_part p rate D v s S : 0 <= p -> 0 <= rate -> 0 < D -> 0 <= v -> 0 < S -> 0 <= s <= S ->
  let val n := p * (n * rate / 1000000000) / D in
  let e := 1 + cdiv p D + cdiv (p * rate) (1000000000 * D) in
  s * val v - S * e <= S * val (cdiv (v * s) S) <= s * val v + S * e.
Proof.
  intros Hp Hr HD Hv HS Hs val e.
  assert (forall n, 0 <= n -> val n * (1000000000 * D) <= p * rate * n /\ p * rate * n <= val n * (1000000000 * D) + 1000000000 * D + 1000000000 * p) as HV.
  { intros n Hn. unfold val. pose proof (Z.mod_pos_bound (n * rate) 1000000000 ltac:(lia)) as M1. pose proof (Z.div_mod (n * rate) 1000000000 ltac:(lia)) as D1.
    set (q := n * rate / 1000000000) in *. set (m := (n * rate) mod 1000000000) in *. pose proof (Z.mod_pos_bound (p * q) D HD) as M2. pose proof (Z.div_mod (p * q) D ltac:(lia)) as D2.
    set (t := p * q / D) in *. set (m2 := (p * q) mod D) in *.
    assert (p * rate * n = 1000000000 * (p * q) + p * m) as E by nia. nia. }
  assert (v * s <= S * cdiv (v * s) S < v * s + S) as Hc. { pose proof (cdiv_spec (v * s) S HS). lia. }
  assert (0 <= cdiv (v * s) S) as Hc0 by (apply cdiv_nonneg; nia).
  destruct (HV v Hv) as [V1 V2]. destruct (HV _ Hc0) as [W1 W2]. set (c := cdiv (v * s) S) in *.
  pose proof (cdiv_spec p D HD) as U1. pose proof (cdiv_spec (p * rate) (1000000000 * D) ltac:(lia)) as U2. unfold e. set (u1 := cdiv p D) in *. set (u2 := cdiv (p * rate) (1000000000 * D)) in *.
  set (X := val v) in *. set (Y := val c) in *. clearbody X Y c u1 u2. clear e val HV. set (K := 1000000000 * D) in *. assert (0 < K) as HK by lia.
  assert (1000000000 * p <= u1 * K) as U3 by nia. assert (p * rate <= u2 * K) as U4 by lia. assert (0 <= p * rate) as U0 by nia. set (g := p * rate) in *. clearbody g.
  assert (0 <= u1 /\ 0 <= u2) as [U5 U6] by nia.
  assert (g * (v * s) <= g * (S * c)) as B1 by nia. assert (g * (S * c) <= g * (v * s + S)) as B2 by nia.
  split.
  - assert ((s * X - S * (1 + u1 + u2)) * K <= S * Y * K); [|nia].
    assert (s * (X * K) <= s * (g * v)) as A1 by nia. assert (S * (g * c) <= S * (Y * K + K + u1 * K)) as A2 by nia. assert (0 <= S * u2 * K) by nia. lia.
  - assert (S * Y * K <= (s * X + S * (1 + u1 + u2)) * K); [|nia].
    assert (S * (Y * K) <= S * (g * c)) as A1 by nia. assert (s * (g * v) <= s * (X * K + K + u1 * K)) as A2 by nia.
    assert (s * (K + u1 * K) <= S * (K + u1 * K)) as A3 by nia. assert (S * g <= S * (u2 * K)) by nia. lia.
Qed.
Lemma debt_part p rate D v s S : 0 <= p -> 0 <= rate -> 0 < D -> 0 <= v -> 0 < S -> 0 <= s <= S ->
  let val n := cdiv (p * cdiv (n * rate) 1000000000) D in
  let e := 1 + cdiv p D + cdiv (p * rate) (1000000000 * D) in
  s * val v - S * e <= S * val (cdiv (v * s) S) <= s * val v + S * e.
Proof.
  intros Hp Hr HD Hv HS Hs val e.
  assert (forall n, 0 <= n -> p * rate * n <= val n * (1000000000 * D) /\ val n * (1000000000 * D) <= p * rate * n + 1000000000 * D + 1000000000 * p) as HV.
  { intros n Hn. unfold val. pose proof (cdiv_spec (n * rate) 1000000000 ltac:(lia)) as D1.
    set (q := cdiv (n * rate) 1000000000) in *. pose proof (cdiv_spec (p * q) D HD) as D2.
    set (t := cdiv (p * q) D) in *. nia. }
  assert (v * s <= S * cdiv (v * s) S < v * s + S) as Hc. { pose proof (cdiv_spec (v * s) S HS). lia. }
  assert (0 <= cdiv (v * s) S) as Hc0 by (apply cdiv_nonneg; nia).
  destruct (HV v Hv) as [V1 V2]. destruct (HV _ Hc0) as [W1 W2]. set (c := cdiv (v * s) S) in *.
  pose proof (cdiv_spec p D HD) as U1. pose proof (cdiv_spec (p * rate) (1000000000 * D) ltac:(lia)) as U2. unfold e. set (u1 := cdiv p D) in *. set (u2 := cdiv (p * rate) (1000000000 * D)) in *.
  set (X := val v) in *. set (Y := val c) in *. clearbody X Y c u1 u2. clear e val HV. set (K := 1000000000 * D) in *. assert (0 < K) as HK by lia.
  assert (1000000000 * p <= u1 * K) as U3 by nia. assert (p * rate <= u2 * K) as U4 by lia. assert (0 <= p * rate) as U0 by nia. set (g := p * rate) in *. clearbody g.
  assert (0 <= u1 /\ 0 <= u2) as [U5 U6] by nia.
  assert (g * (v * s) <= g * (S * c)) as B1 by nia. assert (g * (S * c) <= g * (v * s + S)) as B2 by nia.
  split.
  - assert ((s * X - S * (1 + u1 + u2)) * K <= S * Y * K); [|nia].
    assert (s * (X * K) <= s * (g * v + K + u1 * K)) as A1 by nia. assert (S * (g * c) <= S * (Y * K)) as A2 by nia.
    assert (s * (K + u1 * K) <= S * (K + u1 * K)) as A3 by nia. assert (0 <= S * u2 * K) by nia. lia.
  - assert (S * Y * K <= (s * X + S * (1 + u1 + u2)) * K); [|nia].
    assert (S * (Y * K) <= S * (g * c + K + u1 * K)) as A1 by nia. assert (s * (g * v) <= s * (X * K)) as A2 by nia. assert (S * g <= S * (u2 * K)) by nia. lia.
Qed.

Lemma values_mono now p x pos pos' : good p -> (forall r, r ∈ ps_list p -> 0 <= price_of p x r) ->
  (forall (i : nat) r, ps_list p !! i = Some r -> get_coll pos (Z.of_nat i) <= get_coll pos' (Z.of_nat i) /\ get_liab pos' (Z.of_nat i) <= get_liab pos (Z.of_nat i)) ->
  eff_coll now p x pos <= eff_coll now p x pos' /\ eff_liab now p x pos' <= eff_liab now p x pos.
Proof.
  intros G Hpr H. unfold eff_coll, eff_liab, over_reserves.
  split; apply sumz_le; intros [i r] Hin; apply indexed_in in Hin as [Hi Hl]; rewrite Z.sub_0_r in Hl; destruct (H _ _ Hl) as [H1 H2]; rewrite Z2Nat.id in H1, H2 by done; cbn [fst snd];
    destruct (cw_idx _ (gd_cfg _ G) _ _ Hl) as (cfg & Hc & _); assert (cfg_of p r = cfg) as Hcf by (unfold cfg_of; by rewrite Hc);
    pose proof (cw_valid _ (gd_cfg _ G) _ _ Hc) as Hb; destruct (data_rates now p r cfg G Hc) as [R1 R2]; destruct Hb as (? & ? & ? & _);
    assert (0 < 10 ^ rc_decimals cfg) by (apply Z.pow_pos_nonneg; lia); assert (0 <= price_of p x r) by (apply Hpr; by eapply elem_of_list_lookup_2); vals.
  - unfold coll_eff1, b_assets. rewrite Hcf. apply Z.div_le_mono; [done|]. apply Z.mul_le_mono_nonneg_l; [done|]. apply Z.div_le_mono; [done|].
    apply Z.mul_le_mono_nonneg_r; [lia|]. apply Z.div_le_mono; [done|]. apply Z.mul_le_mono_nonneg_r; lia.
  - unfold liab_eff1, d_assets. rewrite Hcf. apply cdiv_mono; [done|]. apply Z.mul_le_mono_nonneg_l; [done|].
    destruct (Z.eq_dec (rc_l_factor cfg) 0) as [->|Hn].
    { unfold cdiv. by rewrite !Zdiv_0_r. }
    apply cdiv_mono; [lia|]. apply Z.mul_le_mono_nonneg_r; [lia|]. apply cdiv_mono; [lia|]. apply Z.mul_le_mono_nonneg_r; lia.
Qed.

Lemma filled_full au age r : 0 <= age <= 200 -> 0 <= amount_at (au_bid au) r -> 0 <= amount_at (au_lot au) r ->
  amount_at (au_bid (filled au 100 age)) r = amount_at (au_bid au) r /\ amount_at (au_lot (filled au 100 age)) r <= amount_at (au_lot au) r.
Proof.
  intros Hage. unfold filled, amount_at. cbn [au_bid au_lot]. rewrite !lookup_omap. intros Hb Hl. split.
  - destruct (au_bid au !! r) as [v|] eqn:E; simpl; [|done]. simpl in Hb. unfold charged, bid_part, AuctionFacts.bid_share.
    destruct (Z.leb_spec age 200); [|lia]. assert (cdiv (v * 100) 100 = v) as ->.
    { pose proof (cdiv_spec (v * 100) 100 ltac:(lia)). lia. }
    assert (cdiv (v * 10000000) 10000000 = v) as ->. { pose proof (cdiv_spec (v * 10000000) 10000000 ltac:(lia)). lia. }
    unfold positive. destruct (0 <? v) eqn:E0; simpl; [done|]. apply Z.ltb_ge in E0. lia.
  - destruct (au_lot au !! r) as [v|] eqn:E; simpl; [|done]. simpl in Hl. unfold handed, lot_part, AuctionFacts.lot_share.
    rewrite Z.div_mul by done. assert (v * Z.min 10000000 (age * 50000) / 10000000 <= v) by (apply Z.div_le_upper_bound; nia).
    unfold positive. destruct (0 <? v * _ / _) eqn:E0; simpl; lia.
Qed.

(** ** C68 *)
Theorem C68_fill_restores_health : forall w0 sg0 a u pct out0 w1 l au sg filler spender to out w',
  reachable w0 -> prices_nonneg w0 a -> pct < 100 ->
  (* an auction of a part of the debts is opened ... *)
  exec w0 (OPool sg0 a (PNewLiq u pct)) = Ok (out0, w1) -> auction w1 a 0 u = Some au ->
  (* ... and is still there in a later state [w], as is the account *)
  let w := run w1 l in
  auction w a 0 u = Some au ->
  (forall r, collateral (account w0 a u) r <= collateral (account w a u) r /\ owed (account w a u) r <= owed (account w0 a u) r) ->
  (* it is filled as a whole, before the bid starts to shrink *)
  w_seq w - au_block au <= 200 ->
  exec w (OPool sg a (PSubmit filler spender to [mkReq 6 u 100])) = Ok (out, w') ->
  (* then the account has a health factor of at least 1.03, with the prices and rates of the state where the auction was opened *)
  exists dec, o_dec (x_orc (w_ext w0)) !! pc_oracle (ps_config (pool w0 a)) = Some dec /\
    eff_liab (w_now w0) (pool w0 a) (w_ext w0) (positions w' a u) * (10 ^ dec * 10300000 / 10000000) <=
    eff_coll (w_now w0) (pool w0 a) (w_ext w0) (positions w' a u) * 10 ^ dec.
Proof.
  intros w0 sg0 a u pct out0 w1 l au sg filler spender to out w' Hr0 Hpr Hpct H0 Hau1 w Hau Hacc Hage H.
  assert (reachable w1) as Hr1 by (eapply reachable_step; eassumption).
  assert (reachable w) as Hr by (by apply reachable_run).
  assert (reachable w') as Hr' by (eapply reachable_step; eassumption).
  destruct (C67_liquidation_needs _ _ _ _ _ _ _ Hr0 H0 Hpr) as (au0 & dec & -> & Hdec & _ & _ & _ & Hp & HC & HL & _ & Hlot & Hbid & Hband).
  destruct (C16_liquidation_auction _ _ _ _ _ _ _ Hr0 H0) as (au1 & E & _ & Hau1' & Hblk & _ & _ & _ & _ & Hin & (dec' & Hdec' & Hd0 & _) & _). injection E as <-.
  rewrite Hau1 in Hau1'. injection Hau1' as <-.
  assert ((pct =? 100) = false) as Hp100 by (apply Z.eqb_neq; lia). rewrite Hp100 in Hband. destruct Hband as (_ & _ & [Hband _]).
  exists dec. split; [done|].
  assert (good (pool w0 a)) as G0. { destruct (tx_good _ _ _ _ _ _ Hr0 H0) as [_ G]; done. }
  assert (dec' = dec) as -> by congruence.
  assert (0 < 10 ^ dec) as Hs by (by apply Z.pow_pos_nonneg).
  destruct (C20_fill_moves_exactly _ _ _ _ _ _ _ _ _ _ Hr H) as (au2 & Hau2 & _ & Hmv & _). cbv zeta in Hmv. rewrite Hau in Hau2. injection Hau2 as <-.
  destruct (C21_no_self_fill _ _ _ _ _ _ _ _ _ 0 (mkReq 6 u 100) Hr H ltac:(by apply elem_of_list_singleton) ltac:(lia) eq_refl) as [Hne (au3 & Hau3 & Hb3)]. cbn [rq_addr] in Hne, Hau3. rewrite Hau in Hau3. injection Hau3 as <-.
  change (100 mod 2 ^ 64) with 100 in Hmv.
  assert (forall (i : nat) r, reserve_list w0 a !! i = Some r ->
    get_coll (left_with w0 a u dec pct) (Z.of_nat i) <= get_coll (positions w' a u) (Z.of_nat i) /\
    get_liab (positions w' a u) (Z.of_nat i) <= get_liab (left_with w0 a u dec pct) (Z.of_nat i)) as Hle.
  { intros i r Hi. destruct (left_at w0 a u dec pct (Z.of_nat i)) as (F1 & F2 & _). rewrite F1, F2.
    destruct (owed_at w0 a u i r G0 Hi) as (O1 & O2 & _).
    assert (reserve_list w' a !! i = Some r) as Hi'.
    { eapply prefix_lookup; [exact Hi|]. etrans; [|eapply list_step, exec_pool, H]. etrans; [|apply C29_list_only_grows]. eapply list_step, exec_pool, H0. }
    assert (good (pool w' a)) as G' by (by eapply init_of_list).
    destruct (owed_at w' a u i r G' Hi') as (O3 & O4 & _). rewrite <- O1, <- O2, <- O3, <- O4.
    destruct (Hmv u r) as (M1 & M2 & _). rewrite M1, M2, Z.eqb_refl. destruct (Z.eqb_spec u filler) as [->|_]; [done|].
    destruct (Hin r) as (I1 & I2 & I3). specialize (I3 Hpr). destruct (Hacc r) as [A1 A2].
    destruct (filled_full au (w_seq w - au_block au) r ltac:(lia) ltac:(lia) I3) as [Q1 Q2]. rewrite Q1.
    rewrite <- (Hlot r), <- (Hbid r). lia. }
  destruct (values_mono (w_now w0) (pool w0 a) (w_ext w0) _ _ G0 Hpr Hle) as [V1 V2].
  etrans; [|etrans; [exact Hband|]].
  - apply Z.mul_le_mono_nonneg_r; [|exact V2]. apply Z.div_pos; [|lia]. lia.
  - apply Z.mul_le_mono_nonneg_r; [|exact V1]. lia.
Qed.

Lemma part_values w a u s S : good (pool w a) -> prices_nonneg w a -> 0 < S -> 0 <= s <= S ->
  s * coll_worth w a u - S * lot_error w a u <=
    S * sumz (fun r => coll_raw1 (w_now w) (pool w a) (w_ext w) r (cdiv (collateral (account w a u) r * s) S)) (reserve_list w a) <=
    s * coll_worth w a u + S * lot_error w a u /\
  s * debt_worth w a u - S * bid_error w a u <=
    S * sumz (fun r => liab_raw1 (w_now w) (pool w a) (w_ext w) r (cdiv (owed (account w a u) r * s) S)) (reserve_list w a) <=
    s * debt_worth w a u + S * bid_error w a u.
Proof.
  intros G Hpr HS Hs.
  assert (coll_worth w a u = sumz (fun r => coll_raw1 (w_now w) (pool w a) (w_ext w) r (collateral (account w a u) r)) (reserve_list w a)) as ->.
  { rewrite <- (sumz_indexed _ _ 0). unfold coll_worth, raw_coll, over_reserves. apply sumz_ext. intros [i r] Hin. apply indexed_in in Hin as [Hi Hl]. rewrite Z.sub_0_r in Hl. cbn [fst snd].
    destruct (owed_at w a u _ _ G Hl) as (_ & O2 & _). rewrite O2, Z2Nat.id by done. done. }
  assert (debt_worth w a u = sumz (fun r => liab_raw1 (w_now w) (pool w a) (w_ext w) r (owed (account w a u) r)) (reserve_list w a)) as ->.
  { rewrite <- (sumz_indexed _ _ 0). unfold debt_worth, raw_liab, over_reserves. apply sumz_ext. intros [i r] Hin. apply indexed_in in Hin as [Hi Hl]. rewrite Z.sub_0_r in Hl. cbn [fst snd].
    destruct (owed_at w a u _ _ G Hl) as (O1 & _). rewrite O1, Z2Nat.id by done. done. }
  assert (forall k i, 0 <= getz (get_k k (positions w a u)) i) as Hpos by (intros k i; by apply pos_ok_getz, G).
  assert (forall r, r ∈ reserve_list w a -> 0 <= collateral (account w a u) r /\ 0 <= owed (account w a u) r /\ 0 <= price_of (pool w a) (w_ext w) r /\
    0 <= b_rate_now w a r /\ 0 <= d_rate_now w a r /\ 0 < 10 ^ rc_decimals (cfg_of (pool w a) r)) as Hall.
  { intros r Hin. split; [|split; [|split]]; [| |by apply Hpr|]; apply elem_of_list_lookup in Hin as [i Hl].
    - destruct (owed_at w a u _ _ G Hl) as (_ & -> & _). apply (Hpos KColl).
    - destruct (owed_at w a u _ _ G Hl) as (-> & _ & _). apply (Hpos KLiab).
    - destruct (cw_idx _ (gd_cfg _ G) _ _ Hl) as (cfg & Hc & _). assert (cfg_of (pool w a) r = cfg) as Hcf by (unfold cfg_of; by rewrite Hc).
      pose proof (cw_valid _ (gd_cfg _ G) _ _ Hc) as Hb. destruct (data_rates (w_now w) (pool w a) r cfg G Hc) as [R1 R2]. destruct Hb as (? & ? & ? & _). vals. unfold b_rate_now, d_rate_now.
      split; [lia|]. split; [lia|]. rewrite Hcf. apply Z.pow_pos_nonneg; lia. }
  unfold lot_error, bid_error. generalize (reserve_list w a) as L, Hall. clear G Hpr Hpos Hall. intros L. induction L as [|r L IH]; intros Hall; [rewrite !sumz_nil; lia|].
  rewrite !sumz_cons. destruct IH as [IH1 IH2]; [intros r' Hr'; apply Hall; by right|].
  destruct (Hall r ltac:(by left)) as (C0 & O0 & P0 & R1 & R2 & D0).
  pose proof (coll_part _ _ _ _ s S P0 R1 D0 C0 HS Hs) as X. pose proof (debt_part _ _ _ _ s S P0 R2 D0 O0 HS Hs) as Y. cbv zeta in X, Y.
  set (cv := coll_raw1 (w_now w) (pool w a) (w_ext w) r) in *. set (lv := liab_raw1 (w_now w) (pool w a) (w_ext w) r) in *.
  destruct (zero_values (w_now w) (pool w a) (w_ext w) r) as (_ & Z1 & _ & Z2). fold cv in Z1. fold lv in Z2.
  assert (cdiv (0 * s) S = 0) as Z0 by (unfold cdiv; simpl; by rewrite Zdiv_0_l).
  assert (s * cv (collateral (account w a u) r) - S * (if collateral (account w a u) r =? 0 then 0 else 1 + asset_unit w a r + b_unit w a r) <= S * cv (cdiv (collateral (account w a u) r * s) S) <=
    s * cv (collateral (account w a u) r) + S * (if collateral (account w a u) r =? 0 then 0 else 1 + asset_unit w a r + b_unit w a r)) as X1.
  { destruct (Z.eqb_spec (collateral (account w a u) r) 0) as [->|_]; [rewrite Z0, Z1; lia|exact X]. }
  assert (s * lv (owed (account w a u) r) - S * (if owed (account w a u) r =? 0 then 0 else 1 + asset_unit w a r + d_unit w a r) <= S * lv (cdiv (owed (account w a u) r * s) S) <=
    s * lv (owed (account w a u) r) + S * (if owed (account w a u) r =? 0 then 0 else 1 + asset_unit w a r + d_unit w a r)) as Y1.
  { destruct (Z.eqb_spec (owed (account w a u) r) 0) as [->|_]; [rewrite Z0, Z2; lia|exact Y]. }
  clear X Y. split; lia.
Qed.

Lemma premium_bounds w a u dec : 0 <= dec -> 0 < coll_worth w a u -> 0 < debt_worth w a u ->
  0 <= coll_weighted w a u <= coll_worth w a u -> debt_worth w a u <= debt_weighted w a u ->
  10 ^ dec <= premium w a u dec <= 10 ^ dec + cdiv (10 ^ dec) 2.
Proof.
  intros Hd HC HL B1 B2. assert (0 < 10 ^ dec) as Hs by (by apply Z.pow_pos_nonneg). unfold premium. set (S := 10 ^ dec) in *.
  assert (0 <= coll_weighted w a u * S / coll_worth w a u <= S) as Hcf. { split; [apply Z.div_pos; nia|]. apply Z.div_le_upper_bound; nia. }
  assert (S <= debt_weighted w a u * S / debt_worth w a u) as Hlf1. { apply Z.div_le_lower_bound; nia. }
  set (cf := coll_weighted w a u * S / coll_worth w a u) in *. set (lf := debt_weighted w a u * S / debt_worth w a u) in *.
  assert (0 <= cdiv (cf * S) lf <= S) as Hq by (split; [apply cdiv_nonneg; nia|apply cdiv_le_iff; nia]). set (q := cdiv (cf * S) lf) in *.
  split; [assert (0 <= cdiv ((S - q) * S) (2 * S)) by (apply cdiv_nonneg; nia); lia|].
  assert (cdiv ((S - q) * S) (2 * S) <= cdiv S 2); [|lia]. apply cdiv_le_iff; [lia|]. pose proof (cdiv_spec S 2 ltac:(lia)) as Hc. nia.
Qed.

Theorem C68_penalty : forall w sg a u pct out w',
  reachable w -> prices_nonneg w a -> exec w (OPool sg a (PNewLiq u pct)) = Ok (out, w') ->
  exists au dec, out = OutAuction au /\ auction w' a 0 u = Some au /\ o_dec (x_orc (w_ext w)) !! pc_oracle (ps_config (pool w a)) = Some dec /\
    let one := 10 ^ dec in
    (* the premium is between 1 and 1.5 *)
    one <= premium w a u dec <= one + cdiv one 2 /\
    (* the bid is worth the given part of the debts *)
    (bid_value w a au - bid_error w a u) * one <= debt_worth w a u * bid_share dec pct <= (bid_value w a au + bid_error w a u) * one /\
    (* the lot is not worth more than premium * bid ... *)
    (lot_value w a au - lot_error w a u) * one <= (bid_value w a au + bid_error w a u) * premium w a u dec + coll_worth w a u /\
    (* ... and not less, unless it is all the collateral *)
    ((bid_value w a au - bid_error w a u - 1) * premium w a u dec <= (lot_value w a au + lot_error w a u + 1) * one \/
     (forall r, amount_at (au_lot au) r = collateral (account w a u) r) /\ lot_value w a au = coll_worth w a u).
Proof.
  intros w sg a u pct out w' Hr Hpr H. destruct (tx_good _ _ _ _ _ _ Hr H) as [Hi G]; [done|].
  destruct (C67_liquidation_needs _ _ _ _ _ _ _ Hr H Hpr) as (au & dec & -> & Hdec & _ & _ & _ & Hp & HC & HL & _ & Hlot & Hbid & _).
  destruct (C16_liquidation_auction _ _ _ _ _ _ _ Hr H) as (au1 & E & _ & Hau1 & _ & _ & _ & _ & _ & Hin & (dec' & Hdec' & Hd0 & _) & _). injection E as <-.
  assert (dec' = dec) as -> by congruence. clear Hdec'.
  assert (forall (i : nat) r, ps_list (pool w a) !! i = Some r -> get_liab (positions w a u) (Z.of_nat i) <> 0 -> 0 < rc_l_factor (cfg_of (pool w a) r)) as Hlf.
  { apply exec_opool in H as (Hty & _ & _ & px & H & _ & _ & _). simpl in H. rewrite Hi in H. simpl in H. simpl in Hty. apply in_u64_iff in Hty.
    apply bind_ok in H as ([au' p1] & E & H). apply create_liq_sim in E; [|exact G|lia]. cbv zeta in E.
    destruct E as (_ & _ & _ & _ & _ & _ & _ & (? & ? & _ & _ & _ & _ & Hlf & _ & _) & _). exact Hlf. }
  assert (0 < 10 ^ dec) as Hs by (by apply Z.pow_pos_nonneg).
  assert (forall k i, 0 <= getz (get_k k (positions w a u)) i) as Hpos by (intros k i; by apply pos_ok_getz, G).
  destruct (raw_bounds (w_now w) (pool w a) (w_ext w) (positions w a u) G Hpos Hpr Hlf) as [B1 B2].
  destruct (eff_nonneg (w_now w) (pool w a) (w_ext w) (positions w a u) G (fun k i _ _ => Hpos k _) Hpr Hlf) as [B3 B4].
  pose proof (premium_bounds w a u dec Hd0 HC HL (conj B3 B1) (proj2 B2)) as Hprem.
  exists au, dec. split; [done|]. split; [done|]. split; [done|]. cbv zeta. split; [done|].
  pose proof (share_bounds dec pct Hd0 ltac:(lia)) as Hbs.
  assert (0 <= lot_worth w a u dec pct) as HW.
  { unfold lot_worth. apply Z.div_pos; [|lia]. apply Z.mul_nonneg_nonneg; [|lia]. apply Z.div_pos; [|lia]. apply Z.mul_nonneg_nonneg; lia. }
  assert (0 <= lot_share w a u dec pct <= 10 ^ dec) as Hls.
  { unfold lot_share. split; [|lia]. apply Z.min_glb; [lia|]. apply cdiv_nonneg; [done|]. apply Z.mul_nonneg_nonneg; lia. }
  assert (lot_value w a au = sumz (fun r => coll_raw1 (w_now w) (pool w a) (w_ext w) r (cdiv (collateral (account w a u) r * lot_share w a u dec pct) (10 ^ dec))) (reserve_list w a)) as HLV.
  { unfold lot_value. apply sumz_ext. intros r _. by rewrite Hlot. }
  assert (bid_value w a au = sumz (fun r => liab_raw1 (w_now w) (pool w a) (w_ext w) r (cdiv (owed (account w a u) r * bid_share dec pct) (10 ^ dec))) (reserve_list w a)) as HBV.
  { unfold bid_value. apply sumz_ext. intros r _. by rewrite Hbid. }
  destruct (part_values w a u (bid_share dec pct) (10 ^ dec) G Hpr Hs Hbs) as [_ PB].
  destruct (part_values w a u (lot_share w a u dec pct) (10 ^ dec) G Hpr Hs Hls) as [PL _].
  rewrite <- HLV in PL. rewrite <- HBV in PB.
  split; [lia|].
  (* the worth of the lot, from that of the bid *)
  assert (lot_worth w a u dec pct * 10 ^ dec <= (bid_value w a au + bid_error w a u) * premium w a u dec) as W1.
  { unfold lot_worth. set (t := debt_worth w a u * bid_share dec pct / 10 ^ dec). assert (t <= bid_value w a au + bid_error w a u) as Ht by (apply Z.div_le_upper_bound; lia).
    pose proof (fdiv_spec (t * premium w a u dec) (10 ^ dec) Hs) as Hf. assert (t * premium w a u dec <= (bid_value w a au + bid_error w a u) * premium w a u dec) by (apply Z.mul_le_mono_nonneg_r; lia). lia. }
  assert ((bid_value w a au - bid_error w a u - 1) * premium w a u dec <= (lot_worth w a u dec pct + 1) * 10 ^ dec) as W2.
  { unfold lot_worth. set (t := debt_worth w a u * bid_share dec pct / 10 ^ dec). assert (bid_value w a au - bid_error w a u - 1 <= t) as Ht.
    { pose proof (fdiv_spec (debt_worth w a u * bid_share dec pct) (10 ^ dec) Hs) as Hf. fold t in Hf. nia. }
    pose proof (fdiv_spec (t * premium w a u dec) (10 ^ dec) Hs) as Hf. assert ((bid_value w a au - bid_error w a u - 1) * premium w a u dec <= t * premium w a u dec) by (apply Z.mul_le_mono_nonneg_r; lia). lia. }
  pose proof (cdiv_spec (lot_worth w a u dec pct * 10 ^ dec) (coll_worth w a u) HC) as Hcd.
  split.
  { assert (lot_share w a u dec pct * coll_worth w a u <= lot_worth w a u dec pct * 10 ^ dec + coll_worth w a u) as K.
    { unfold lot_share. etrans; [apply Z.mul_le_mono_nonneg_r; [lia|apply Z.le_min_r]|]. lia. }
    lia. }
  destruct (Z.le_gt_cases (10 ^ dec) (cdiv (lot_worth w a u dec pct * 10 ^ dec) (coll_worth w a u))) as [Hall|Hpart].
  - right. assert (lot_share w a u dec pct = 10 ^ dec) as Els by (unfold lot_share; lia). rewrite Els in *.
    assert (forall r, cdiv (collateral (account w a u) r * 10 ^ dec) (10 ^ dec) = collateral (account w a u) r) as Hc.
    { intros r. pose proof (cdiv_spec (collateral (account w a u) r * 10 ^ dec) (10 ^ dec) Hs). nia. }
    split; [intros r; by rewrite Hlot, Hc|]. rewrite HLV. unfold coll_worth, raw_coll, over_reserves. change (ps_list (pool w a)) with (reserve_list w a). rewrite <- (sumz_indexed _ _ 0).
    apply sumz_ext. intros [i r] Hin'. apply indexed_in in Hin' as [Hi' Hl]. rewrite Z.sub_0_r in Hl. cbn [fst snd]. rewrite Hc.
    destruct (owed_at w a u _ _ G Hl) as (_ & O2 & _). rewrite O2, Z2Nat.id by done. done.
  - left. assert (lot_share w a u dec pct = cdiv (lot_worth w a u dec pct * 10 ^ dec) (coll_worth w a u)) as Els by (unfold lot_share; lia). rewrite Els in *. lia.
Qed.
