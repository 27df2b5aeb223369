(** * Auctions: pool/src/auctions/*.rs, and the backstop threshold of
      pool/src/pool/status.rs *)
From Verif Require Import Base Types Token Emitter Factory Backstop PoolReserve PoolUser PoolHealth.

(** ** Calls to the backstop contract

    The pool calls whatever address was stored at initialization; only the
    backstop of the model has code here, a call to any other address fails. *)
Definition to_backstop {A} (p : PoolSt) (k : res A) : res A :=
  if ps_backstop p =? bs_addr then k else Err Trap.

(** [backstop_client.backstop_token()]: backstop/src/contract.rs 274-276 *)
Definition call_backstop_token (p : PoolSt) (x : Ext) : res Addr :=
  to_backstop p (if bs_init (x_bs x) then Ok (bs_token (x_bs x)) else Err Trap).
(** [backstop_client.pool_data(self)]: backstop/src/contract.rs 270-272 *)
Definition call_pool_data (p : PoolSt) (x : Ext) (self : Addr) : res PoolData :=
  to_backstop p (pool_data x self).

(** [calc_pool_backstop_threshold]: pool/src/pool/status.rs 129-148 *)
Definition threshold (d : PoolData) : Z :=
  let bl := Z.quot (pd_blnd d) SCALAR_7 in
  let us := Z.quot (pd_usdc d) SCALAR_7 in
  Z.quot (sat_mul (sat_mul (sat_mul (sat_mul (sat_mul bl bl) bl) bl) us) SCALAR_7)
    320000000000000000000000000.

(** ** Scaling: auction.rs 191-274 *)

(** modifiers: auction.rs 211-228; returns (bid_modifier, lot_modifier) *)
Definition modifiers (dif : Z) : Z * Z :=
  if 200 <? dif then
    ((if dif <? 400 then SCALAR_7 - (dif - 200) * 50000 else 0), SCALAR_7)
  else (SCALAR_7, dif * 50000).

(** one iteration of the bid loop (232-249, [ceil] = true) or of the lot loop
    (250-267, [ceil] = false); the accumulator is (to_fill, remaining) *)
Definition scale_one (ceil : bool) (pct md : Z) (s : gmap Addr Z * gmap Addr Z) (e : Addr * Z)
  : res (gmap Addr Z * gmap Addr Z) :=
  let '(fillm, rem) := s in
  let mul := if ceil then fmul_ceil else fmul_floor in
  let? base := mul (snd e) pct SCALAR_7 in
  let? rb := i128 (snd e - base) in
  let rem := if 0 <? rb then <[fst e := rb]> rem else rem in
  let? sc := mul base md SCALAR_7 in
  let fillm := if 0 <? sc then <[fst e := sc]> fillm else fillm in
  Ok (fillm, rem).

(** [scale_auction]: auction.rs 191-274 *)
Definition scale_auction (seq : Z) (a : Auction) (pct : Z) : res (Auction * option Auction) :=
  assert! (negb ((100 <? pct) || (pct =? 0))) else PoolE 1200 in
  let? dif := u32 (seq - au_block a) in
  let '(bm, lm) := modifiers dif in
  let? pi := i128 (pct * 100000) in
  let? '(fb, rb) := foldM (scale_one true pi bm) (∅, ∅) (entries (au_bid a)) in
  let? '(fl, rl) := foldM (scale_one false pi lm) (∅, ∅) (entries (au_lot a)) in
  Ok (mkAuction fb fl (au_block a),
      if bool_decide (rl = ∅) && bool_decide (rb = ∅) then None
      else Some (mkAuction rb rl (au_block a))).

(** ** User liquidations: user_liquidation_auction.rs *)

Definition set_auction (p : PoolSt) (t : Z) (u : Addr) (a : Auction) : PoolSt :=
  p <| ps_auct := <[(t, u) := a]> (ps_auct p) |>.
Definition del_auction (p : PoolSt) (t : Z) (u : Addr) : PoolSt :=
  p <| ps_auct := delete (t, u) (ps_auct p) |>.
Definition has_auction (p : PoolSt) (t : Z) (u : Addr) : bool :=
  bool_decide (is_Some (ps_auct p !! (t, u))).

(** the loops filling lot and bid: user_liquidation_auction.rs 73-93 *)
Definition quote (l : list Addr) (pct scalar : Z) (m : gmap Addr Z) (e : Z * Z) : res (gmap Addr Z) :=
  let? a := list_get l (fst e) in
  let? v := fmul_ceil (snd e) pct scalar in
  Ok (<[a := v]> m).

(** the estimates of user_liquidation_auction.rs 40-71: returns
    (percent_liquidated scaled, est_withdrawn_collateral, est pct) *)
Definition liq_estimate (d : PosData) (pct : Z) : res (Z * Z * Z) :=
  let sc := hd_scalar d in
  let? ps0 := i128 (pct * sc) in
  let ps := Z.quot ps0 100 in
  let? avg_cf := fdiv_floor (hd_coll_base d) (hd_coll_raw d) sc in
  let? avg_lf := fdiv_floor (hd_liab_base d) (hd_liab_raw d) sc in
  let? q := fdiv_ceil avg_cf avg_lf sc in
  let? df := i128 (sc - q) in
  let? two := i128 (2 * sc) in
  let? inc0 := fdiv_ceil df two sc in
  let? inc := i128 (inc0 + sc) in
  let? w0 := fmul_floor (hd_liab_raw d) ps sc in
  let? w := fmul_floor w0 inc sc in
  let? wp := fdiv_ceil w (hd_coll_raw d) sc in
  Ok (ps, w, if sc <? wp then sc else wp).

(** [create_user_liq_auction_data]: user_liquidation_auction.rs 12-120.  The
    in-memory pool and user are discarded at the end; only emission updates reach
    storage. *)
Definition create_user_liq (c : Ctx) (p : PoolSt) (x : Ext) (user : Addr) (pct : Z)
  : res (Auction * PoolSt) :=
  assert! (negb (has_auction p 0 user)) else PoolE 1212 in
  assert! (negb ((100 <? pct) || (pct =? 0))) else PoolE 1211 in
  let? blk := u32 (c_seq c + 1) in
  let ch := pool_load p in
  let pos := get_pos p user in
  let? '(d, ch) := position_data (c_now c) p x ch pos in
  assert! (negb (hd_liab_base d <? hd_coll_base d)) else PoolE 1211 in
  let? '(ps, w, wp) := liq_estimate d pct in
  let? lot := foldM (quote (ps_list p) wp (hd_scalar d)) ∅ (entries (po_coll pos)) in
  let? bid := foldM (quote (ps_list p) ps (hd_scalar d)) ∅ (entries (po_liab pos)) in
  let au := mkAuction bid lot blk in
  if pct =? 100 then
    assert! (negb (w <? hd_coll_raw d)) else PoolE 1213 in
    Ok (au, p)
  else
    let? '(p, ch, pos) := rm_positions (c_now c) user (p, ch, pos) lot bid in
    let? '(nd, ch) := position_data (c_now c) p x ch pos in
    let? over := is_hf_over nd 11500000 in
    assert! (negb over) else PoolE 1213 in
    let? under := is_hf_under nd 10300000 in
    assert! (negb under) else PoolE 1214 in
    Ok (au, p).

(** [create_liquidation]: auction.rs 99-115 *)
Definition create_liquidation (c : Ctx) (self : Addr) (p : PoolSt) (x : Ext) (user : Addr) (pct : Z)
  : res (Auction * PoolSt) :=
  assert! (negb ((user =? self) || (user =? ps_backstop p))) else PoolE 1211 in
  let? '(au, p) := create_user_liq c p x user pct in
  Ok (au, set_auction p 0 user au).

(** [delete_liquidation]: auction.rs 126-131 *)
Definition delete_liquidation (p : PoolSt) (user : Addr) : res PoolSt :=
  assert! (has_auction p 0 user) else PoolE 1200 in
  Ok (del_auction p 0 user).

(** [fill_user_liq_auction]: user_liquidation_auction.rs 122-133; [fpos] are the
    filler's positions *)
Definition fill_user_liq (c : Ctx) (p : PoolSt) (ch : Cache) (au : Auction) (user filler : Addr)
  (fpos : Positions) : res Fl :=
  let? '(p, ch, upos) := rm_positions (c_now c) user (p, ch, get_pos p user) (au_lot au) (au_bid au) in
  let? '(p, ch, fpos) := add_positions (c_now c) filler (p, ch, fpos) (au_lot au) (au_bid au) in
  Ok (set_pos p user upos, ch, fpos).

(** ** Bad debt auctions: bad_debt_auction.rs *)

(** loop of [create_bad_debt_auction_data]: bad_debt_auction.rs 30-41 *)
Definition bad_debt_one (c : Ctx) (p : PoolSt) (x : Ext) (s : Z * gmap Addr Z * Cache) (e : Z * Z)
  : res (Z * gmap Addr Z * Cache) :=
  let '(dv, bid, ch) := s in
  let? a := list_get (ps_list p) (fst e) in
  if 0 <? snd e then
    let? '(r, ch) := load_reserve (c_now c) p ch a false in
    let? '(price, ch) := load_price (c_now c) x ch a in
    let? ab := asset_from_d (r_data r) (snd e) in
    let? v := fmul_floor price ab (r_scalar r) in
    let? dv := i128 (dv + v) in
    Ok (dv, <[a := snd e]> bid, ch)
  else Ok s.

(** value of one backstop token in base units: bad_debt_auction.rs 50-57 and
    backstop_interest_auction.rs 54-60 *)
Definition backstop_token_value (d : PoolData) (oscalar : Z) : res Z :=
  let? u := fmul_floor (pd_usdc d) oscalar SCALAR_7 in
  let? v := i128 (u * 5) in
  fdiv_floor v (pd_tokens d) SCALAR_7.

(** [create_bad_debt_auction]: auction.rs 52-64,
    [create_bad_debt_auction_data]: bad_debt_auction.rs 14-69 *)
Definition create_bad_debt (c : Ctx) (self : Addr) (p : PoolSt) (x : Ext) : res (Auction * PoolSt) :=
  let bs := ps_backstop p in
  assert! (negb (has_auction p 1 bs)) else PoolE 1212 in
  let? blk := u32 (c_seq c + 1) in
  let ch := pool_load p in
  let? '(dec, ch) := load_dec x ch in
  let? osc := pow10 dec in
  let? '(dv, bid, ch) := foldM (bad_debt_one c p x) (0, ∅, ch) (entries (po_liab (get_pos p bs))) in
  assert! (negb (bool_decide (bid = ∅) || (dv =? 0))) else PoolE 1200 in
  let? btok := call_backstop_token p x in
  let? pd := call_pool_data p x self in
  let? tv := backstop_token_value pd osc in
  let? l0 := fmul_floor dv 14000000 SCALAR_7 in
  let? l1 := fdiv_floor l0 tv SCALAR_7 in
  let au := mkAuction bid {[ btok := Z.min (pd_tokens pd) l1 ]} blk in
  Ok (au, set_auction p 1 bs au).

(** loop collecting the liabilities to burn: bad_debt_auction.rs 104-113 *)
Definition burn_map (l : list Addr) (liab : gmap Z Z) : res (gmap Addr Z) :=
  foldM (fun m e => let? a := list_get l (fst e) in Ok (<[a := snd e]> m)) ∅ (entries liab).

(** log of a burn: asset, dTokens and dToken rate *)
Definition log_burns (self : Addr) (ch : Cache) (m : gmap Addr Z) (x : Ext) : Ext :=
  foldr (fun e x => add_log (EvBurn self (fst e) (snd e)
           (match ch_res ch !! fst e with Some r => rd_d_rate (r_data r) | None => 0 end)) x)
    x (entries m).

(** [fill_bad_debt_auction]: bad_debt_auction.rs 72-120 *)
Definition fill_bad_debt (c : Ctx) (self : Addr) (p : PoolSt) (x : Ext) (ch : Cache) (au : Auction)
  (filler : Addr) (fpos : Positions) : res (Fl * Ext) :=
  let now := c_now c in
  let bs := ps_backstop p in
  assert! (negb (filler =? bs)) else PoolE 1200 in
  let? '(p, ch, bpos) := rm_positions now bs (p, ch, get_pos p bs) ∅ (au_bid au) in
  let? '(p, ch, fpos) := add_positions now filler (p, ch, fpos) ∅ (au_bid au) in
  let? btok := call_backstop_token p x in
  let? lot := unwrap (au_lot au !! btok) in
  let? x := b_draw (as_contract c self) x self lot filler in
  if bool_decide (po_liab bpos = ∅) then Ok ((set_pos p bs bpos, ch, fpos), x)
  else
    let? pd := call_pool_data p x self in
    if threshold pd <? 3 then
      let? m := burn_map (ps_list p) (po_liab bpos) in
      let? '(p, ch, bpos) := rm_positions now bs (p, ch, bpos) ∅ m in
      Ok ((set_pos p bs bpos, ch, fpos), log_burns self ch m x)
    else Ok ((set_pos p bs bpos, ch, fpos), x).

(** ** Interest auctions: backstop_interest_auction.rs *)

(** loop of [create_interest_auction_data]: backstop_interest_auction.rs 29-41 *)
Definition interest_one (c : Ctx) (p : PoolSt) (x : Ext) (s : Z * gmap Addr Z * Cache) (a : Addr)
  : res (Z * gmap Addr Z * Cache) :=
  let '(iv, lot, ch) := s in
  let? '(r, ch) := load_reserve (c_now c) p ch a false in
  if 0 <? rd_credit (r_data r) then
    let? '(price, ch) := load_price (c_now c) x ch a in
    let? v := fmul_floor price (rd_credit (r_data r)) (r_scalar r) in
    let? iv := i128 (iv + v) in
    Ok (iv, <[a := rd_credit (r_data r)]> lot, ch)
  else Ok (iv, lot, ch).

(** [create_interest_auction]: auction.rs 75-87,
    [create_interest_auction_data]: backstop_interest_auction.rs 11-71 *)
Definition create_interest (c : Ctx) (self : Addr) (p : PoolSt) (x : Ext) (assets : list Addr)
  : res (Auction * PoolSt) :=
  let bs := ps_backstop p in
  assert! (negb (has_auction p 2 bs)) else PoolE 1212 in
  let ch := pool_load p in
  let? '(dec, ch) := load_dec x ch in
  let? osc := pow10 dec in
  let? blk := u32 (c_seq c + 1) in
  let? '(iv, lot, ch) := foldM (interest_one c p x) (0, ∅, ch) assets in
  let? min := i128 (200 * osc) in
  assert! (negb (iv <=? min)) else PoolE 1215 in
  assert! (negb (bool_decide (lot = ∅) || (iv =? 0))) else PoolE 1200 in
  let? pd := call_pool_data p x self in
  let? tv := backstop_token_value pd osc in
  let? b0 := fmul_floor iv 14000000 SCALAR_7 in
  let? b1 := fdiv_floor b0 tv SCALAR_7 in
  let? btok := call_backstop_token p x in
  let au := mkAuction {[ btok := b1 ]} lot blk in
  Ok (au, set_auction p 2 bs au).

(** loop of [fill_interest_auction]: backstop_interest_auction.rs 95-104 *)
Definition interest_fill_one (c : Ctx) (self filler : Addr) (p : PoolSt) (s : Cache * Ext) (e : Addr * Z)
  : res (Cache * Ext) :=
  let '(ch, x) := s in
  let? '(r, ch) := load_reserve (c_now c) p ch (fst e) true in
  let? cr := i128 (rd_credit (r_data r) - snd e) in
  let ch := cache_reserve ch (r <| r_data := r_data r <| rd_credit := cr |> |>) in
  let? t := transfer (as_contract c self) (x_tok x) (fst e) self filler (snd e) in
  Ok (ch, x <| x_tok := t |>).

(** [fill_interest_auction]: backstop_interest_auction.rs 73-105 *)
Definition fill_interest (c : Ctx) (self : Addr) (p : PoolSt) (x : Ext) (ch : Cache) (au : Auction)
  (filler : Addr) : res (Cache * Ext) :=
  assert! (negb (filler =? ps_backstop p)) else PoolE 1200 in
  let? btok := call_backstop_token p x in
  let? bid := unwrap (au_bid au !! btok) in
  let? x := b_donate (as_contract c self) x filler self bid in
  foldM (interest_fill_one c self filler p) (ch, x) (entries (au_lot au)).

(** ** [fill]: auction.rs 145-175 *)
Definition fill (c : Ctx) (self : Addr) (p : PoolSt) (x : Ext) (ch : Cache) (t : Z)
  (user filler : Addr) (fpos : Positions) (pct : Z) : res (Fl * Ext) :=
  assert! (negb (user =? filler)) else PoolE 1211 in
  let? au := unwrap (ps_auct p !! (t, user)) in
  let? '(tf, rem) := scale_auction (c_seq c) au pct in
  let? '((p, ch, fpos), x) :=
    (if t =? 0 then
       let? s := fill_user_liq c p ch tf user filler fpos in Ok (s, x)
     else if t =? 1 then fill_bad_debt c self p x ch tf filler fpos
     else if t =? 2 then
       let? '(ch, x) := fill_interest c self p x ch tf filler in Ok ((p, ch, fpos), x)
     else Err (PoolE 1200)) in
  let p := match rem with Some a => set_auction p t user a | None => del_auction p t user end in
  Ok ((p, ch, fpos), x).
