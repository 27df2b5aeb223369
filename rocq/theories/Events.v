(** * Events: what the contracts publish

    Every [e.events().publish(..)] of the four contracts (not those of token contracts, which are environment).  The topics
    and data of an event are the arguments of its constructor; the publishing contract is the first argument for pools, and is fixed
    for the backstop, the emitter and the factory.  The functions below recompute, from the state in which a call (or a request of a
    submit) starts, what the code publishes while it executes; a failed transaction publishes nothing.  [set_emissions_config], the
    [initialize] functions, [gulp_pool_emissions] and [update_tkn_val] publish nothing. *)
From Verif Require Import Base Types Token Emitter Factory Backstop PoolReserve PoolUser PoolHealth
  PoolAuction PoolSubmit PoolEmis PoolAdmin World.

Inductive Event :=
(* pool/src/pool/actions.rs 125-131, 146-153, 161-168, 183-190, 200-207, 220-238: underlying amount, shares *)
| VSupply (pool asset from : Addr) (amt n : Z)
| VWithdraw (pool asset from : Addr) (amt n : Z)
| VSupplyColl (pool asset from : Addr) (amt n : Z)
| VWithdrawColl (pool asset from : Addr) (amt n : Z)
| VBorrow (pool asset from : Addr) (amt n : Z)
| VRepay (pool asset from : Addr) (amt n : Z)
(* actions.rs 252-259, 273-280, 292-299, 305-308 *)
| VFill (pool user : Addr) (t : Z) (filler : Addr) (pct : Z)
| VDelete (pool user : Addr)
(* pool/src/pool/bad_debt.rs 43-46, pool/src/auctions/bad_debt_auction.rs 109-112 *)
| VBadDebt (pool user asset : Addr) (n : Z)
(* pool/src/contract.rs 269-270, 280-283, 293-296, 306-307, 313-314, 346-347, 356-357 *)
| VSetAdmin (pool admin new_admin : Addr)
| VUpdatePool (pool admin : Addr) (rate max_positions : Z)
| VQueueRes (pool admin asset : Addr) (cfg : ResConfig)
| VCancelRes (pool admin asset : Addr)
| VSetRes (pool asset : Addr) (index : Z)
| VStatus (pool : Addr) (admin : option Addr) (status : Z)
(* pool/src/emissions/manager.rs 137-140, pool/src/contract.rs 366-367, 384-387 *)
| VEmis (pool : Addr) (id eps exp : Z)
| VGulp (pool : Addr) (n : Z)
| VClaim (pool from : Addr) (ids : list Z) (n : Z)
(* pool/src/contract.rs 397-400, 412-415, 424-427 *)
| VNewLiq (pool user : Addr) (au : Auction)
| VNewAuction (pool : Addr) (t : Z) (au : Auction)
(* backstop/src/contract.rs 221-224, 234-237, 247-250, 259-262, 284-285, 292-293, 308, 324-325, 334-335; backstop/src/emissions/claim.rs 70-73 *)
| VBDeposit (pool user : Addr) (amt n : Z)
| VBQueue (pool user : Addr) (n exp : Z)
| VBDequeue (pool user : Addr) (n : Z)
| VBWithdraw (pool user : Addr) (n amt : Z)
| VBGulp (n : Z)
| VBZone (to_add to_remove : Addr)
| VBClaim (user : Addr) (n : Z)
| VBDraw (pool to : Addr) (n : Z)
| VBDonate (pool user : Addr) (n : Z)
(* emitter/src/contract.rs 97-100, 117, 128, 135, 142 *)
| VDistribute (backstop : Addr) (n : Z)
| VQueueSwap (s : Swap)
| VDelSwap (s : Swap)
| VSwap (s : Swap)
| VDrop (l : list (Addr * Z))
(* pool-factory/src/pool_factory.rs 109-110 *)
| VDeploy (pool : Addr).

(** ** Requests of a submit: pool/src/pool/actions.rs *)

(** Supply and SupplyCollateral: actions.rs 120-131, 156-168 *)
Definition supply_ev (now : Z) (s : Loop) (q : Request) (mk : Z -> Z -> Event) : res (list Event) :=
  let? '(r, _) := load_reserve now (lo_p s) (lo_ch s) (rq_addr q) true in
  let? m := b_down (r_data r) (rq_amt q) in
  Ok [mk (rq_amt q) m].
(** Withdraw and WithdrawCollateral: actions.rs 135-153, 171-190 *)
Definition withdraw_ev (now : Z) (s : Loop) (q : Request) (held : Positions -> Z -> Z) (mk : Z -> Z -> Event) : res (list Event) :=
  let? '(r, _) := load_reserve now (lo_p s) (lo_ch s) (rq_addr q) true in
  let cur := held (lo_pos s) (r_index r) in
  let? tb := b_up (r_data r) (rq_amt q) in
  if cur <? tb then let? o := asset_from_b (r_data r) cur in Ok [mk o cur] else Ok [mk (rq_amt q) tb].
(** Borrow: actions.rs 193-207 *)
Definition borrow_ev (now : Z) (s : Loop) (q : Request) (mk : Z -> Z -> Event) : res (list Event) :=
  let? '(r, _) := load_reserve now (lo_p s) (lo_ch s) (rq_addr q) true in
  let? m := d_up (r_data r) (rq_amt q) in
  Ok [mk (rq_amt q) m].
(** Repay: actions.rs 210-239; after a refund the event reports what was kept *)
Definition repay_ev (now : Z) (s : Loop) (q : Request) (mk : Z -> Z -> Event) : res (list Event) :=
  let? '(r, _) := load_reserve now (lo_p s) (lo_ch s) (rq_addr q) true in
  let cur := get_liab (lo_pos s) (r_index r) in
  let? burnt := d_down (r_data r) (rq_amt q) in
  if cur <? burnt then
    let? owed := asset_from_d (r_data r) cur in
    let? refund := i128 (rq_amt q - owed) in
    let? kept := i128 (rq_amt q - refund) in
    Ok [mk kept cur]
  else Ok [mk (rq_amt q) burnt].

(** one event per liability: bad_debt_auction.rs 107-113, bad_debt.rs 36-47 *)
Definition debts_ev (self user : Addr) (l : list Addr) (liab : gmap Z Z) : res (list Event) :=
  foldM (fun es e => let? a := list_get l (fst e) in Ok (es ++ [VBadDebt self user a (snd e)])) [] (entries liab).

(** the draw of the lot, then the burned debt: bad_debt_auction.rs 78-117 *)
Definition fill_bad_debt_ev (c : Ctx) (self : Addr) (s : Loop) (user filler : Addr) (pct : Z) : res (list Event) :=
  let now := c_now c in
  let p := lo_p s in
  let bs := ps_backstop p in
  let? au := unwrap (ps_auct p !! (1, user)) in
  let? '(tf, _) := scale_auction (c_seq c) au pct in
  let? '(p, ch, bpos) := rm_positions now bs (p, lo_ch s, get_pos p bs) ∅ (au_bid tf) in
  let? '(p, ch, _) := add_positions now filler (p, ch, lo_pos s) ∅ (au_bid tf) in
  let? btok := call_backstop_token p (lo_x s) in
  let? lot := unwrap (au_lot tf !! btok) in
  let? x := b_draw (as_contract c self) (lo_x s) self lot filler in
  let drawn := VBDraw self filler lot in
  if bool_decide (po_liab bpos = ∅) then Ok [drawn]
  else
    let? pd := call_pool_data p x self in
    if threshold pd <? 3 then
      let? es := debts_ev self bs (ps_list p) (po_liab bpos) in Ok (drawn :: es)
    else Ok [drawn].

(** the donation of the bid: backstop_interest_auction.rs 84-93 *)
Definition fill_interest_ev (c : Ctx) (self : Addr) (s : Loop) (user filler : Addr) (pct : Z) : res (list Event) :=
  let? au := unwrap (ps_auct (lo_p s) !! (2, user)) in
  let? '(tf, _) := scale_auction (c_seq c) au pct in
  let? btok := call_backstop_token (lo_p s) (lo_x s) in
  let? bid := unwrap (au_bid tf !! btok) in
  Ok [VBDonate self filler bid].

(** the events of one request, in order; fills report the i128 amount of the request, before its truncation to u64 *)
Definition request_ev (c : Ctx) (self from : Addr) (s : Loop) (q : Request) : res (list Event) :=
  let now := c_now c in
  let a := rq_addr q in
  match rq_type q with
  | 0 => supply_ev now s q (VSupply self a from)
  | 1 => withdraw_ev now s q get_sup (VWithdraw self a from)
  | 2 => supply_ev now s q (VSupplyColl self a from)
  | 3 => withdraw_ev now s q get_coll (VWithdrawColl self a from)
  | 4 => borrow_ev now s q (VBorrow self a from)
  | 5 => repay_ev now s q (VRepay self a from)
  | 6 => Ok [VFill self a 0 from (rq_amt q)]
  | 7 => let? es := fill_bad_debt_ev c self s a from (as_u64 (rq_amt q)) in Ok (es ++ [VFill self a 1 from (rq_amt q)])
  | 8 => let? es := fill_interest_ev c self s a from (as_u64 (rq_amt q)) in Ok (es ++ [VFill self a 2 from (rq_amt q)])
  | 9 => Ok [VDelete self from]
  | _ => Ok []
  end.
(** the request loop: actions.rs 114-311 *)
Fixpoint requests_ev (c : Ctx) (self from : Addr) (s : Loop) (qs : list Request) : res (list Event) :=
  match qs with
  | [] => Ok []
  | q :: qs =>
      let? e := request_ev c self from s q in
      let? s' := do_request c self from s q in
      let? es := requests_ev c self from s' qs in
      Ok (e ++ es)
  end.
(** submit.rs 23-66 *)
Definition submit_ev (c : Ctx) (self : Addr) (p : PoolSt) (x : Ext) (from : Addr) (qs : list Request) : res (list Event) :=
  requests_ev c self from (mkLoop p x (pool_load p) (get_pos p from) no_actions false) qs.

(** ** The other calls of a pool: pool/src/contract.rs 261-430.  [p'] is the storage afterwards. *)
Definition pool_ev (c : Ctx) (self : Addr) (p : PoolSt) (x : Ext) (o : POp) (out : Out) (p' : PoolSt) : res (list Event) :=
  match o, out with
  | PSetAdmin a, _ => Ok [VSetAdmin self (ps_admin p) a]
  | PUpdatePool r m, _ => Ok [VUpdatePool self (ps_admin p) r m]
  | PQueueRes a m, _ => Ok [VQueueRes self (ps_admin p) a m]
  | PCancelRes a, _ => Ok [VCancelRes self (ps_admin p) a]
  | PSetRes a, OutZ i => Ok [VSetRes self a i]
  | PSubmit from _ _ qs, _ => submit_ev c self p x from qs
  | PBadDebt u, _ => debts_ev self u (ps_list p) (po_liab (get_pos p u))
  | PUpdateStatus, OutZ s => Ok [VStatus self None s]
  | PSetStatus s, _ => Ok [VStatus self (Some (ps_admin p)) s]
  (* one event per configured reserve token with its new stream, then the total: manager.rs 77-84 *)
  | PGulp, OutZ n =>
      let? es := foldM (fun es e => let? c := unwrap (ps_ecfg p' !! fst e) in Ok (es ++ [VEmis self (fst e) (ec_eps c) (ec_exp c)]))
                   [] (entries (ps_pemis p)) in
      Ok (es ++ [VGulp self n])
  | PClaim from ids _, OutZ n => Ok [VClaim self from ids n]
  | PNewLiq u _, OutAuction au => Ok [VNewLiq self u au]
  | PNewBadDebt, OutAuction au => Ok [VNewAuction self 1 au]
  | PNewInterest _, OutAuction au => Ok [VNewAuction self 2 au]
  | _, _ => Ok []
  end.

(** ** Backstop, emitter *)
(** the deposits of a claim: claim.rs 55-74 *)
Definition claim_dep_ev (claimed lp_out : Z) (claims : gmap Addr Z) (to : Addr) (s : list Event * Ext) (p : Addr) : res (list Event * Ext) :=
  let '(es, x) := s in
  let? a := unwrap (claims !! p) in
  let? dep := fmul_floor lp_out a claimed in
  let? m := to_shares (get_pb x p) dep in
  let? x' := claim_dep claimed lp_out claims to x p in
  Ok (es ++ [VBDeposit p to dep m], x').
(** claim.rs 11-78, contract.rs 302-310 *)
Definition claim_ev (c : Ctx) (x : Ext) (from : Addr) (pools : list Addr) (to : Addr) (lp_out : Z) : res (list Event) :=
  let? '(claimed, claims, x) := foldM (claim_one c from) (0, ∅, x) pools in
  if 0 <? claimed then
    let lp := bs_token (x_bs x) in
    let? t := tok_move (x_tok x) (bs_blnd (x_bs x)) bs_addr lp claimed in
    let? t := mint t lp bs_addr lp_out in
    let x := x <| x_tok := t |> <| x_lp_supply := x_lp_supply x + lp_out |> in
    let? '(es, _) := foldM (claim_dep_ev claimed lp_out claims to) ([], x) pools in
    Ok (es ++ [VBClaim from claimed])
  else Ok [VBClaim from claimed].

(** backstop/src/contract.rs 212-336, emitter/src/contract.rs 91-143.  [x'] is the storage afterwards. *)
Definition ext_ev (c : Ctx) (x : Ext) (o : XOp) (out : Out) (x' : Ext) : res (list Event) :=
  match o, out with
  | EDistribute, OutZ n => Ok [VDistribute (em_backstop (x_em x)) n]
  | EQueueSwap _ _, _ => let? s := unwrap (em_swap (x_em x')) in Ok [VQueueSwap s]
  | ECancelSwap, _ => let? s := unwrap (em_swap (x_em x)) in Ok [VDelSwap s]
  | ESwap, _ => let? s := unwrap (em_swap (x_em x)) in Ok [VSwap s]
  | EDrop l, _ => Ok [VDrop l]
  | BDeposit f p n, OutZ m => Ok [VBDeposit p f n m]
  | BQueue f p n, OutQ4W q => Ok [VBQueue p f n (q_exp q)]
  | BDequeue f p n, _ => Ok [VBDequeue p f n]
  | BWithdraw f p n, OutZ r => Ok [VBWithdraw p f n r]
  | BDraw p n t, _ => Ok [VBDraw p t n]
  | BDonate f p n, _ => Ok [VBDonate p f n]
  | BDrop, _ => let? l := unwrap (bs_drop (x_bs x)) in Ok [VDrop l]
  | BAddReward a r, _ => Ok [VBZone a r]
  | BGulp, OutZ n => Ok [VBGulp n]
  | BClaim f ps t lp, _ => claim_ev c x f ps t lp
  | _, _ => Ok []
  end.

(** ** The events of a transaction and of a history *)
Definition op_ev (w : World) (o : Op) (out : Out) (w' : World) : res (list Event) :=
  match o with
  | OExt sg xo => ext_ev (ctx w sg) (w_ext w) xo out (w_ext w')
  | OPool sg a po =>
      let? p := unwrap (w_pools w !! a) in
      let? p' := unwrap (w_pools w' !! a) in
      pool_ev (ctx w sg) a p (w_ext w) po out p'
  | ODeploy _ admin salt _ _ _ => Ok [VDeploy (dep_addr admin salt)]
  | _ => Ok []
  end.
Definition events (w : World) (o : Op) : list Event :=
  match exec w o with
  | Ok (out, w') => match op_ev w o out w' with Ok es => es | Err _ => [] end
  | Err _ => []
  end.
(** an archive of events: each with the sequence number of its ledger *)
Fixpoint event_log (w : World) (l : list Op) : list (Z * Event) :=
  match l with
  | [] => []
  | o :: l => map (fun e => (w_seq w, e)) (events w o) ++ event_log (step w o) l
  end.
