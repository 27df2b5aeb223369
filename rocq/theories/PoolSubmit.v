(** * Requests, submit and bad debt:
      pool/src/pool/actions.rs, submit.rs, bad_debt.rs *)
From Verif Require Import Base Types Token Emitter Factory Backstop PoolReserve PoolUser PoolHealth PoolAuction.

(** [Request]: actions.rs 10-16 *)
Record Request := mkReq { rq_type : Z; rq_addr : Addr; rq_amt : Z }.

(** [Actions]: actions.rs 57-60 *)
Record Actions := mkActs { ac_spender : gmap Addr Z; ac_pool : gmap Addr Z }.
#[export] Instance eta_Actions : Settable _ := settable! mkActs <ac_spender; ac_pool>.
Definition no_actions : Actions := mkActs ∅ ∅.

(** [add_for_spender_transfer]: actions.rs 72-77 *)
Definition add_spender (ac : Actions) (a : Addr) (amt : Z) : res Actions :=
  let? v := i128 (amt + default 0 (ac_spender ac !! a)) in
  Ok (ac <| ac_spender := <[a := v]> (ac_spender ac) |>).
(** [add_for_pool_transfer]: actions.rs 80-85 *)
Definition add_pool (ac : Actions) (a : Addr) (amt : Z) : res Actions :=
  let? v := i128 (amt + default 0 (ac_pool ac !! a)) in
  Ok (ac <| ac_pool := <[a := v]> (ac_pool ac) |>).

(** state of the request loop *)
Record Loop := mkLoop {
  lo_p : PoolSt; lo_x : Ext; lo_ch : Cache; lo_pos : Positions; lo_ac : Actions; lo_check : bool
}.
#[export] Instance eta_Loop : Settable _ := settable! mkLoop <lo_p; lo_x; lo_ch; lo_pos; lo_ac; lo_check>.

(** Supply: actions.rs 119-133 *)
Definition do_supply (now : Z) (from : Addr) (s : Loop) (q : Request) : res Loop :=
  let? '(r, ch) := load_reserve now (lo_p s) (lo_ch s) (rq_addr q) true in
  let? m := b_down (r_data r) (rq_amt q) in
  let? '(p, pos, r) := add_supply now (lo_p s) from (lo_pos s) r m in
  let? ac := add_spender (lo_ac s) (r_asset r) (rq_amt q) in
  Ok (mkLoop p (lo_x s) (cache_reserve ch r) pos ac (lo_check s)).

(** Withdraw: actions.rs 134-154 *)
Definition do_withdraw (now : Z) (from : Addr) (s : Loop) (q : Request) : res Loop :=
  let? '(r, ch) := load_reserve now (lo_p s) (lo_ch s) (rq_addr q) true in
  let cur := get_sup (lo_pos s) (r_index r) in
  let? tb := b_up (r_data r) (rq_amt q) in
  let? '(tb, out) := (if cur <? tb then let? o := asset_from_b (r_data r) cur in Ok (cur, o)
                      else Ok (tb, rq_amt q)) in
  let? '(p, pos, r) := remove_supply now (lo_p s) from (lo_pos s) r tb in
  let? ac := add_pool (lo_ac s) (r_asset r) out in
  Ok (mkLoop p (lo_x s) (cache_reserve ch r) pos ac (lo_check s)).

(** SupplyCollateral: actions.rs 155-169 *)
Definition do_supply_coll (now : Z) (from : Addr) (s : Loop) (q : Request) : res Loop :=
  let? '(r, ch) := load_reserve now (lo_p s) (lo_ch s) (rq_addr q) true in
  let? m := b_down (r_data r) (rq_amt q) in
  let? '(p, pos, r) := add_collateral now (lo_p s) from (lo_pos s) r m in
  let? ac := add_spender (lo_ac s) (r_asset r) (rq_amt q) in
  Ok (mkLoop p (lo_x s) (cache_reserve ch r) pos ac (lo_check s)).

(** WithdrawCollateral: actions.rs 170-191 *)
Definition do_withdraw_coll (now : Z) (from : Addr) (s : Loop) (q : Request) : res Loop :=
  let? '(r, ch) := load_reserve now (lo_p s) (lo_ch s) (rq_addr q) true in
  let cur := get_coll (lo_pos s) (r_index r) in
  let? tb := b_up (r_data r) (rq_amt q) in
  let? '(tb, out) := (if cur <? tb then let? o := asset_from_b (r_data r) cur in Ok (cur, o)
                      else Ok (tb, rq_amt q)) in
  let? '(p, pos, r) := remove_collateral now (lo_p s) from (lo_pos s) r tb in
  let? ac := add_pool (lo_ac s) (r_asset r) out in
  Ok (mkLoop p (lo_x s) (cache_reserve ch r) pos ac true).

(** Borrow: actions.rs 192-208 *)
Definition do_borrow (now : Z) (from : Addr) (s : Loop) (q : Request) : res Loop :=
  let? '(r, ch) := load_reserve now (lo_p s) (lo_ch s) (rq_addr q) true in
  let? m := d_up (r_data r) (rq_amt q) in
  let? '(p, pos, r) := add_liabilities now (lo_p s) from (lo_pos s) r m in
  let? _ := require_util r in
  let? ac := add_pool (lo_ac s) (r_asset r) (rq_amt q) in
  Ok (mkLoop p (lo_x s) (cache_reserve ch r) pos ac true).

(** Repay: actions.rs 209-240 *)
Definition do_repay (now : Z) (from : Addr) (s : Loop) (q : Request) : res Loop :=
  let? '(r, ch) := load_reserve now (lo_p s) (lo_ch s) (rq_addr q) true in
  let cur := get_liab (lo_pos s) (r_index r) in
  let? burnt := d_down (r_data r) (rq_amt q) in
  let? ac := add_spender (lo_ac s) (r_asset r) (rq_amt q) in
  if cur <? burnt then
    let? owed := asset_from_d (r_data r) cur in
    let? refund := i128 (rq_amt q - owed) in
    let? _ := p_nonneg refund in
    let? '(p, pos, r) := remove_liabilities now (lo_p s) from (lo_pos s) r cur in
    let? ac := add_pool ac (r_asset r) refund in
    Ok (mkLoop p (lo_x s) (cache_reserve ch r) pos ac (lo_check s))
  else
    let? '(p, pos, r) := remove_liabilities now (lo_p s) from (lo_pos s) r burnt in
    Ok (mkLoop p (lo_x s) (cache_reserve ch r) pos ac (lo_check s)).

(** Fill requests: actions.rs 241-300; [request.amount as u64] truncates *)
Definition do_fill (c : Ctx) (self from : Addr) (t : Z) (chk : bool) (s : Loop) (q : Request) : res Loop :=
  let? '((p, ch, pos), x) :=
    fill c self (lo_p s) (lo_x s) (lo_ch s) t (rq_addr q) from (lo_pos s) (as_u64 (rq_amt q)) in
  Ok (mkLoop p x ch pos (lo_ac s) (lo_check s || chk)).

(** DeleteLiquidationAuction: actions.rs 301-309 *)
Definition do_delete (from : Addr) (s : Loop) : res Loop :=
  let? p := delete_liquidation (lo_p s) from in
  Ok (s <| lo_p := p |> <| lo_check := true |>).

(** one iteration of the request loop: actions.rs 114-311 *)
Definition do_request (c : Ctx) (self from : Addr) (s : Loop) (q : Request) : res Loop :=
  let now := c_now c in
  let? _ := p_nonneg (rq_amt q) in
  let? _ := require_action (lo_ch s) (rq_type q) in
  match rq_type q with
  | 0 => do_supply now from s q
  | 1 => do_withdraw now from s q
  | 2 => do_supply_coll now from s q
  | 3 => do_withdraw_coll now from s q
  | 4 => do_borrow now from s q
  | 5 => do_repay now from s q
  | 6 => do_fill c self from 0 true s q
  | 7 => do_fill c self from 1 true s q
  | 8 => do_fill c self from 2 false s q
  | 9 => do_delete from s
  | _ => Err (PoolE 1200)
  end.

(** [build_actions_from_request]: actions.rs 104-317 *)
Definition build_actions (c : Ctx) (self : Addr) (p : PoolSt) (x : Ext) (ch : Cache) (from : Addr)
  (qs : list Request) : res Loop :=
  let pos := get_pos p from in
  let prev := eff_count pos in
  let? s := foldM (do_request c self from) (mkLoop p x ch pos no_actions false) qs in
  let? _ := require_under_max (lo_ch s) (lo_pos s) prev in
  Ok s.

(** the health check of [execute_submit]: submit.rs 43-49 *)
Definition check_hf (c : Ctx) (s : Loop) : res Cache :=
  if lo_check s && negb (bool_decide (po_liab (lo_pos s) = ∅)) then
    let? '(d, ch) := position_data (c_now c) (lo_p s) (lo_x s) (lo_ch s) (lo_pos s) in
    let? under := is_hf_under d 10000100 in
    assert! (negb under) else PoolE 1205 in
    Ok ch
  else Ok (lo_ch s).

(** token loops: submit.rs 52-54 and 61-63 *)
Definition transfer_all (c : Ctx) (from to : Addr) (t : Tok) (m : gmap Addr Z) : res Tok :=
  foldM (fun t e => transfer c t (fst e) from to (snd e)) t (entries m).

(** [submit]: contract.rs 322-336, [execute_submit]: submit.rs 23-66 *)
Definition p_submit (c : Ctx) (self : Addr) (px : PX) (from spender to : Addr) (qs : list Request)
  : res (Positions * PX) :=
  let? _ := need_auth c spender in
  let? _ := (if from =? spender then Ok tt else need_auth c from) in
  assert! (negb ((from =? self) || (spender =? self) || (to =? self))) else PoolE 1200 in
  let ch := pool_load (px_p px) in
  let? s := build_actions c self (px_p px) (px_x px) ch from qs in
  let? ch := check_hf c s in
  let? t := transfer_all c spender self (x_tok (lo_x s)) (ac_spender (lo_ac s)) in
  let? p := store_cached (lo_p s) ch in
  let p := set_pos p from (lo_pos s) in
  let? t := transfer_all (as_contract c self) self to t (ac_pool (lo_ac s)) in
  Ok (lo_pos s, mkPX p ((lo_x s) <| x_tok := t |>)).

(** loop of [transfer_bad_debt_to_backstop]: bad_debt.rs 36-47; the accumulator is
    (storage, cache, new user positions, new backstop positions) *)
Definition bad_debt_step (now : Z) (user bs : Addr) (l : list Addr)
  (s : PoolSt * Cache * Positions * Positions) (e : Z * Z) : res (PoolSt * Cache * Positions * Positions) :=
  let '(p, ch, up, bp) := s in
  let? a := list_get l (fst e) in
  let? '(r, ch) := load_reserve now p ch a true in
  let? '(p, bp, r) := add_liabilities now p bs bp r (snd e) in
  let? '(p, up, r) := remove_liabilities now p user up r (snd e) in
  Ok (p, cache_reserve ch r, up, bp).

(** [bad_debt]: contract.rs 338-340, [transfer_bad_debt_to_backstop]: bad_debt.rs 18-52 *)
Definition p_bad_debt (c : Ctx) (p : PoolSt) (user : Addr) : res PoolSt :=
  let bs := ps_backstop p in
  assert! (negb (user =? bs)) else PoolE 1200 in
  let up := get_pos p user in
  assert! (bool_decide (po_coll up = ∅) && negb (bool_decide (po_liab up = ∅))) else PoolE 1200 in
  let? '(p, ch, nup, nbp) :=
    foldM (bad_debt_step (c_now c) user bs (ps_list p)) (p, pool_load p, up, get_pos p bs)
      (entries (po_liab up)) in
  let? p := store_cached p ch in
  Ok (set_pos (set_pos p bs nbp) user nup).
