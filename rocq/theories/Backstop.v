(** * Backstop contract: backstop/src *)
From Verif Require Import Base Types Token Emitter Factory.

Definition set_bs (x : Ext) (f : BackstopSt -> BackstopSt) : Ext := x <| x_bs := f (x_bs x) |>.

(** ** Storage accessors: backstop/src/storage.rs *)

(* 218-233 *)
Definition get_ub (x : Ext) (pool user : Addr) : UserBal :=
  default (mkUserBal 0 []) (bs_user (x_bs x) !! (pool, user)).
(* 241-249 *)
Definition set_ub (x : Ext) (pool user : Addr) (b : UserBal) : Ext :=
  set_bs x (fun s => s <| bs_user := <[(pool, user) := b]> (bs_user s) |>).
(* 257-270 *)
Definition get_pb (x : Ext) (pool : Addr) : PoolBal :=
  default (mkPoolBal 0 0 0) (bs_pool (x_bs x) !! pool).
(* 277-285 *)
Definition set_pb (x : Ext) (pool : Addr) (b : PoolBal) : Ext :=
  set_bs x (fun s => s <| bs_pool := <[pool := b]> (bs_pool s) |>).
(* 345-354 *)
Definition get_pemis (x : Ext) (pool : Addr) : Z := default 0 (bs_pemis (x_bs x) !! pool).
(* 361-369 *)
Definition set_pemis (x : Ext) (pool : Addr) (v : Z) : Ext :=
  set_bs x (fun s => s <| bs_pemis := <[pool := v]> (bs_pemis s) |>).
(* 393-402 *)
Definition set_becfg (x : Ext) (pool : Addr) (v : EmisConfig) : Ext :=
  set_bs x (fun s => s <| bs_ecfg := <[pool := v]> (bs_ecfg s) |>).
(* 424-429 *)
Definition set_bedata (x : Ext) (pool : Addr) (v : EmisData) : Ext :=
  set_bs x (fun s => s <| bs_edata := <[pool := v]> (bs_edata s) |>).
(* 450-463 *)
Definition set_buemis (x : Ext) (pool user : Addr) (v : UserEmis) : Ext :=
  set_bs x (fun s => s <| bs_uemis := <[(pool, user) := v]> (bs_uemis s) |>).

(** [require_nonnegative]: backstop/src/contract.rs 356-360 *)
Definition b_nonneg (v : Z) : res unit := if v <? 0 then Err (BackE 8) else Ok tt.

(** ** Pool balances: backstop/src/backstop/pool.rs *)

(** [convert_to_shares]: pool.rs 100-108 *)
Definition to_shares (b : PoolBal) (tokens : Z) : res Z :=
  if pb_shares b =? 0 then Ok tokens else fmul_floor tokens (pb_shares b) (pb_tokens b).
(** [convert_to_tokens]: pool.rs 114-122 *)
Definition to_tokens (b : PoolBal) (shares : Z) : res Z :=
  if pb_shares b =? 0 then Ok shares else fmul_floor shares (pb_tokens b) (pb_shares b).
(** [non_queued_tokens]: pool.rs 125-127 *)
Definition non_queued (b : PoolBal) : res Z :=
  let? q := to_tokens b (pb_q4w b) in i128 (pb_tokens b - q).
(** [PoolBalance::deposit]: pool.rs 134-137 *)
Definition pb_deposit (b : PoolBal) (tokens shares : Z) : res PoolBal :=
  let? t := i128 (pb_tokens b + tokens) in
  let? s := i128 (pb_shares b + shares) in
  Ok (b <| pb_tokens := t |> <| pb_shares := s |>).
(** [PoolBalance::withdraw]: pool.rs 144-151 *)
Definition pb_withdraw (b : PoolBal) (tokens shares : Z) : res PoolBal :=
  assert! (negb ((pb_tokens b <? tokens) || (pb_shares b <? shares) || (pb_q4w b <? shares)))
    else BackE 1003 in
  let? t := i128 (pb_tokens b - tokens) in
  let? s := i128 (pb_shares b - shares) in
  let? q := i128 (pb_q4w b - shares) in
  Ok (mkPoolBal s t q).
(** [queue_for_withdraw]: pool.rs 157-159 *)
Definition pb_queue (b : PoolBal) (shares : Z) : res PoolBal :=
  let? q := i128 (pb_q4w b + shares) in Ok (b <| pb_q4w := q |>).
(** [dequeue_q4w]: pool.rs 165-170 *)
Definition pb_dequeue (b : PoolBal) (shares : Z) : res PoolBal :=
  assert! (negb (pb_q4w b <? shares)) else BackE 1003 in
  let? q := i128 (pb_q4w b - shares) in Ok (b <| pb_q4w := q |>).

(** [PoolBackstopData], [load_pool_backstop_data]: pool.rs 7-43 *)
Record PoolData := mkPoolData { pd_tokens : Z; pd_q4w_pct : Z; pd_blnd : Z; pd_usdc : Z }.
Definition pool_data (x : Ext) (pool : Addr) : res PoolData :=
  let b := get_pb x pool in
  let? q := (if 0 <? pb_shares b then fdiv_ceil (pb_q4w b) (pb_shares b) SCALAR_7 else Ok 0) in
  let? v := unwrap (bs_lpval (x_bs x)) in
  let? blnd := fmul_floor (pb_tokens b) (fst v) SCALAR_7 in
  let? usdc := fmul_floor (pb_tokens b) (snd v) SCALAR_7 in
  Ok (mkPoolData (pb_tokens b) q blnd usdc).

(** [require_is_from_pool_factory]: pool.rs 55-62.  The factory address stored at
    initialization must be the factory of the model. *)
Definition require_pool (x : Ext) (a : Addr) (bal : Z) : res unit :=
  if bal =? 0 then
    assert! (bs_factory (x_bs x) =? fac_addr) else Trap in
    if fa_is_pool x a then Ok tt else Err (BackE 1004)
  else Ok tt.

(** i128 [saturating_mul] *)
Definition sat_mul (a b : Z) : Z :=
  let r := a * b in
  if i128_max <? r then i128_max else if r <? i128_min then i128_min else r.

(** [require_pool_above_threshold]: pool.rs 67-84 *)
Definition above_threshold (d : PoolData) : bool :=
  let bl := Z.quot (pd_blnd d) SCALAR_7 in
  let us := Z.quot (pd_usdc d) SCALAR_7 in
  320000000000000000000000000 <=? sat_mul (sat_mul (sat_mul (sat_mul bl bl) bl) bl) us.

(** ** User balances: backstop/src/backstop/user.rs *)

Definition MAX_Q4W_SIZE : Z := 21.                   (* constants.rs 11 *)
Definition Q4W_LOCK_TIME : Z := 21 * 24 * 60 * 60.   (* constants.rs 14 *)

(** [add_shares]: user.rs 38-40 *)
Definition ub_add (b : UserBal) (n : Z) : res UserBal :=
  let? s := i128 (ub_shares b + n) in Ok (b <| ub_shares := s |>).

(** [queue_shares_for_withdrawal]: user.rs 53-68 *)
Definition ub_queue (c : Ctx) (b : UserBal) (n : Z) : res UserBal :=
  assert! (negb (ub_shares b <? n)) else BackE 10 in
  assert! (negb (MAX_Q4W_SIZE <=? Z.of_nat (length (ub_q4w b)))) else BackE 1007 in
  let? s := i128 (ub_shares b - n) in
  let? e := u64 (c_now c + Q4W_LOCK_TIME) in
  Ok (mkUserBal s (ub_q4w b ++ [mkQ4W n e])).

(** the loop of [dequeue_shares_for_withdrawal]: user.rs 89-110; returns
    (left_to_dequeue, remaining queue) *)
Fixpoint dequeue_loop (now : Z) (req : bool) (lft : Z) (q : list Q4W) : res (Z * list Q4W) :=
  match q with
  | [] => Ok (lft, [])
  | e :: q' =>
      if negb req || (q_exp e <=? now) then
        if lft <? q_amount e then
          let? a := i128 (q_amount e - lft) in Ok (0, mkQ4W a (q_exp e) :: q')
        else if q_amount e =? lft then Ok (0, q')
        else let? l := i128 (lft - q_amount e) in dequeue_loop now req l q'
      else Err (BackE 1001)
  end.
(** [dequeue_shares_for_withdrawal]: user.rs 81-115 *)
Definition ub_dequeue (c : Ctx) (b : UserBal) (n : Z) (req : bool) : res UserBal :=
  let? '(lft, q) := dequeue_loop (c_now c) req n (ub_q4w b) in
  assert! (negb (0 <? lft)) else BackE 10 in
  Ok (b <| ub_q4w := q |>).

(** ** Depositor emissions: backstop/src/emissions/distributor.rs *)

(** [update_emission_data_with_config]: distributor.rs 72-106 *)
Definition b_update_data (c : Ctx) (x : Ext) (pool : Addr) (pb : PoolBal) (cfg : EmisConfig)
  : res (EmisData * Ext) :=
  let? d := unwrap (bs_edata (x_bs x) !! pool) in
  if (ec_exp cfg <=? ed_last d) || (c_now c =? ed_last d) || (ec_eps cfg =? 0) || (pb_shares pb =? 0)
  then Ok (d, x)
  else
    let max_t := if ec_exp cfg <? c_now c then ec_exp cfg else c_now c in
    let? unq := i128 (pb_shares pb - pb_q4w pb) in
    let? _ := b_nonneg unq in
    let? dt := u64 (max_t - ed_last d) in
    let? tk := i128 (dt * ec_eps cfg) in
    let? add := fdiv_floor tk unq SCALAR_7 in
    let? idx := i128 (add + ed_index d) in
    let nd := mkEmisData idx (c_now c) in
    Ok (nd, set_bedata x pool nd).

(** [set_user_emissions]: distributor.rs 149-164 *)
Definition b_set_user (x : Ext) (pool user : Addr) (idx acc : Z) (claim : bool) : Z * Ext :=
  if claim then (acc, set_buemis x pool user (mkUserEmis idx 0))
  else (0, set_buemis x pool user (mkUserEmis idx acc)).

(** [update_user_emissions]: distributor.rs 113-147 *)
Definition b_update_user (x : Ext) (pool user : Addr) (d : EmisData) (ub : UserBal) (claim : bool)
  : res (Z * Ext) :=
  match bs_uemis (x_bs x) !! (pool, user) with
  | Some ud =>
      if negb (ue_index ud =? ed_index d) || claim then
        if ub_shares ub =? 0 then Ok (b_set_user x pool user (ed_index d) (ue_accrued ud) claim)
        else
          let? di := i128 (ed_index d - ue_index ud) in
          let? _ := b_nonneg di in
          let? ta := fmul_floor (ub_shares ub) di SCALAR_7 in
          let? acc := i128 (ue_accrued ud + ta) in
          Ok (b_set_user x pool user (ed_index d) acc claim)
      else Ok (0, x)
  | None =>
      if ub_shares ub =? 0 then Ok (b_set_user x pool user (ed_index d) 0 claim)
      else
        let? ta := fmul_floor (ub_shares ub) (ed_index d) SCALAR_7 in
        Ok (b_set_user x pool user (ed_index d) ta claim)
  end.

(** [update_emissions] (claim = false), distributor.rs 16-26 and
    [claim_emissions] (claim = true), 35-47, with [update_emission_data], 50-64 *)
Definition b_emissions (c : Ctx) (x : Ext) (pool : Addr) (pb : PoolBal) (user : Addr) (ub : UserBal)
  (claim : bool) : res (Z * Ext) :=
  match bs_ecfg (x_bs x) !! pool with
  | Some cfg =>
      let? '(d, x) := b_update_data c x pool pb cfg in
      b_update_user x pool user d ub claim
  | None => Ok (0, x)
  end.

(** ** Deposits and withdrawals *)

(** [deposit]: contract.rs 215-226, [execute_deposit]: deposit.rs 8-33 *)
Definition b_deposit (c : Ctx) (x : Ext) (from pool : Addr) (amt : Z) : res (Z * Ext) :=
  let? _ := need_auth c from in
  let? _ := b_nonneg amt in
  assert! (negb ((from =? pool) || (from =? bs_addr))) else BackE 1000 in
  assert! (bs_init (x_bs x)) else Trap in
  let pb := get_pb x pool in
  let? _ := require_pool x pool (pb_shares pb) in
  let ub := get_ub x pool from in
  let? '(_, x) := b_emissions c x pool pb from ub false in
  let? t := transfer c (x_tok x) (bs_token (x_bs x)) from bs_addr amt in
  let x := x <| x_tok := t |> in
  let? m := to_shares pb amt in
  assert! (negb (m =? 0)) else BackE 1005 in
  let? pb := pb_deposit pb amt m in
  let? ub := ub_add ub m in
  Ok (m, set_ub (set_pb x pool pb) pool from ub).

(** [queue_withdrawal]: contract.rs 228-239, withdrawal.rs 8-29 *)
Definition b_queue (c : Ctx) (x : Ext) (from pool : Addr) (amt : Z) : res (Q4W * Ext) :=
  let? _ := need_auth c from in
  let? _ := b_nonneg amt in
  let pb := get_pb x pool in
  let ub := get_ub x pool from in
  let? '(_, x) := b_emissions c x pool pb from ub false in
  let? ub := ub_queue c ub amt in
  let? pb := pb_queue pb amt in
  let x := set_pb (set_ub x pool from ub) pool pb in
  let? q := unwrap (last (ub_q4w ub)) in
  Ok (q, x).

(** [dequeue_withdrawal]: contract.rs 241-251, withdrawal.rs 32-47 *)
Definition b_dequeue (c : Ctx) (x : Ext) (from pool : Addr) (amt : Z) : res Ext :=
  let? _ := need_auth c from in
  let? _ := b_nonneg amt in
  let pb := get_pb x pool in
  let ub := get_ub x pool from in
  let? '(_, x) := b_emissions c x pool pb from ub false in
  let? ub := ub_dequeue c ub amt false in
  let? ub := ub_add ub amt in
  let? pb := pb_dequeue pb amt in
  Ok (set_pb (set_ub x pool from ub) pool pb).

(** [withdraw]: contract.rs 253-264, withdrawal.rs 50-71 *)
Definition b_withdraw (c : Ctx) (x : Ext) (from pool : Addr) (amt : Z) : res (Z * Ext) :=
  let? _ := need_auth c from in
  let? _ := b_nonneg amt in
  let pb := get_pb x pool in
  let ub := get_ub x pool from in
  let? ub := ub_dequeue c ub amt true in
  let? ret := to_tokens pb amt in
  assert! (negb (ret =? 0)) else BackE 1006 in
  let? pb := pb_withdraw pb ret amt in
  let x := set_pb (set_ub x pool from ub) pool pb in
  assert! (bs_init (x_bs x)) else Trap in
  let? t := transfer (as_contract c bs_addr) (x_tok x) (bs_token (x_bs x)) bs_addr from ret in
  Ok (ret, x <| x_tok := t |>).

(** ** Fund management: backstop/src/backstop/fund_management.rs *)

(** [draw]: contract.rs 318-326, [execute_draw]: fund_management.rs 14-24 *)
Definition b_draw (c : Ctx) (x : Ext) (pool : Addr) (amt : Z) (to : Addr) : res Ext :=
  let? _ := need_auth c pool in
  let? _ := b_nonneg amt in
  let? pb := pb_withdraw (get_pb x pool) amt 0 in
  let x := set_pb x pool pb in
  assert! (bs_init (x_bs x)) else Trap in
  let? t := transfer (as_contract c bs_addr) (x_tok x) (bs_token (x_bs x)) bs_addr to amt in
  Ok (x <| x_tok := t |>).

(** [donate]: contract.rs 328-336, [execute_donate]: fund_management.rs 27-41 *)
Definition b_donate (c : Ctx) (x : Ext) (from pool : Addr) (amt : Z) : res Ext :=
  let? _ := need_auth c from in
  let? _ := need_auth c pool in
  let? _ := b_nonneg amt in
  assert! (negb ((from =? pool) || (from =? bs_addr))) else BackE 1000 in
  let pb := get_pb x pool in
  assert! (bs_init (x_bs x)) else Trap in
  let? _ := require_pool x pool (pb_shares pb) in
  let? t := transfer c (x_tok x) (bs_token (x_bs x)) from bs_addr amt in
  let x := x <| x_tok := t |> in
  let? pb := pb_deposit pb amt 0 in
  Ok (set_pb x pool pb).

(** [update_tkn_val]: contract.rs 338-346, [execute_update_comet_token_value]:
    fund_management.rs 44-65 *)
Definition b_update_tkn_val (c : Ctx) (x : Ext) : res ((Z * Z) * Ext) :=
  let s := x_bs x in
  assert! (bs_init s) else Trap in
  let? b := fdiv_floor (balance (x_tok x) (bs_blnd s) (bs_token s)) (x_lp_supply x) SCALAR_7 in
  let? u := fdiv_floor (balance (x_tok x) (bs_usdc s) (bs_token s)) (x_lp_supply x) SCALAR_7 in
  Ok ((b, u), set_bs x (fun s => s <| bs_lpval := Some (b, u) |>)).

(** ** Initialization and drop *)

(** [initialize]: contract.rs 180-211 (argument order of the implementation).
    The emitter called must be the emitter of the model. *)
Definition b_initialize (c : Ctx) (x : Ext) (token emitter usdc blnd factory : Addr)
  (drop : list (Addr * Z)) : res Ext :=
  assert! (negb (bs_init (x_bs x))) else BackE 3 in
  assert! (emitter =? em_addr) else Trap in
  let? last := em_get_last x bs_addr in
  Ok (set_bs x (fun s => s <| bs_token := token |> <| bs_blnd := blnd |> <| bs_usdc := usdc |>
        <| bs_factory := factory |> <| bs_drop := Some drop |> <| bs_emitter := emitter |>
        <| bs_last := last |> <| bs_init := true |>)).

(** [drop]: contract.rs 312-314 *)
Definition b_drop (c : Ctx) (x : Ext) : res Ext :=
  assert! (bs_init (x_bs x)) else Trap in
  assert! (bs_emitter (x_bs x) =? em_addr) else Trap in
  let? l := unwrap (bs_drop (x_bs x)) in
  em_drop (as_contract c bs_addr) x l.

(** ** Reward zone and distribution: backstop/src/emissions/manager.rs *)

Definition BACKSTOP_EPOCH : Z := 1713139200.   (* constants.rs 7 *)

(** maximum reward zone length: manager.rs 20-24 *)
Definition max_rz_len (now : Z) : Z :=
  if now <? BACKSTOP_EPOCH then 10 else 10 + Z.shiftr (now - BACKSTOP_EPOCH) 23.

Definition mem_addr (a : Addr) (l : list Addr) : bool := existsb (Z.eqb a) l.

(** replace the first occurrence of [a] by [b] ([first_index_of] + [set]) *)
Fixpoint replace_first (a b : Addr) (l : list Addr) : list Addr :=
  match l with
  | [] => []
  | h :: t => if h =? a then b :: t else h :: replace_first a b t
  end.

(** [add_to_reward_zone]: manager.rs 18-64 *)
Definition b_add_reward (c : Ctx) (x : Ext) (to_add to_remove : Addr) : res Ext :=
  let rz := bs_rz (x_bs x) in
  assert! (negb (mem_addr to_add rz)) else BackE 1000 in
  let? d := pool_data x to_add in
  assert! (above_threshold d) else BackE 1002 in
  if Z.of_nat (length rz) <? max_rz_len (c_now c) then
    Ok (set_bs x (fun s => s <| bs_rz := to_add :: rz |>))
  else
    assert! (mem_addr to_remove rz) else BackE 1002 in
    let? lim := u64 (c_now c - 24 * 60 * 60) in
    assert! (negb (bs_last (x_bs x) <? lim)) else BackE 1000 in
    assert! (negb (pd_tokens d <=? pb_tokens (get_pb x to_remove))) else BackE 1002 in
    Ok (set_bs x (fun s => s <| bs_rz := replace_first to_remove to_add rz |>)).

(** [set_backstop_emission_config]: manager.rs 154-190 *)
Definition b_set_ecfg (c : Ctx) (x : Ext) (pool : Addr) (pb : PoolBal) (new_tokens : Z) : res Ext :=
  let? '(lft, x) :=
    (match bs_ecfg (x_bs x) !! pool with
     | Some cfg =>
         let? '(d, x) := b_update_data c x pool pb cfg in
         let x := if negb (ed_last d =? c_now c)
                  then set_bedata x pool (mkEmisData (ed_index d) (c_now c)) else x in
         if c_now c <? ec_exp cfg then
           let? dt := u64 (ec_exp cfg - c_now c) in
           let? r := u64 (ec_eps cfg * dt) in
           let? l := i128 (new_tokens + r) in
           Ok (l, x)
         else Ok (new_tokens, x)
     | None => Ok (new_tokens, set_bedata x pool (mkEmisData 0 (c_now c)))
     end) in
  let? e := u64 (c_now c + 7 * 24 * 60 * 60) in
  let? eps := u64 (Z.quot lft (7 * 24 * 60 * 60)) in
  Ok (set_becfg x pool (mkEmisConfig e eps)).

(** first loop of [gulp_emissions]: manager.rs 94-103 *)
Definition gulp_sum (x : Ext) (rz : list Addr) : res Z :=
  foldM (fun s p => let? n := non_queued (get_pb x p) in i128 (s + n)) 0 rz.

(** body of the second loop of [gulp_emissions]: manager.rs 106-126.  The Rust
    code reads all pool balances before the loop; the loop itself never writes
    pool balances, so reading them here is the same. *)
Definition gulp_one (c : Ctx) (total tot_pool tot_bs : Z) (x : Ext) (p : Addr) : res Ext :=
  let pb := get_pb x p in
  let? n := non_queued pb in
  let? share := fdiv_floor n total SCALAR_7 in
  let? np := fmul_floor share tot_pool SCALAR_7 in
  let? cur := i128 (get_pemis x p + np) in
  let x := set_pemis x p cur in
  let? nb := fmul_floor share tot_bs SCALAR_7 in
  let? x := b_set_ecfg c x p pb nb in
  Ok (add_log (EvAlloc p np nb) x).

(** [gulp_emissions]: manager.rs 68-128 *)
Definition b_gulp (c : Ctx) (x : Ext) : res (Z * Ext) :=
  let rz := bs_rz (x_bs x) in
  assert! (negb (Z.of_nat (length rz) =? 0)) else BackE 1000 in
  assert! (bs_init (x_bs x)) else Trap in
  assert! (bs_emitter (x_bs x) =? em_addr) else Trap in
  let? em_last := em_get_last x bs_addr in
  let last := bs_last (x_bs x) in
  let? lim := u64 (last + 60 * 60) in
  assert! (negb (em_last <=? lim)) else BackE 1000 in
  let x := set_bs x (fun s => s <| bs_last := em_last |>) in
  let? dt := u64 (em_last - last) in
  let? new := i128 (dt * SCALAR_7) in
  let? tot_bs := fmul_floor new 7000000 SCALAR_7 in
  let? tot_pool := fmul_floor new 3000000 SCALAR_7 in
  let? total := gulp_sum x rz in
  let? x := foldM (gulp_one c total tot_pool tot_bs) x rz in
  Ok (new, x).

Definition LEDGER_BUMP_USER : Z := 2073600.   (* storage.rs 9-18: 120 days of 17280 ledgers *)

(** [gulp_pool_emissions]: contract.rs 296-300, manager.rs 131-150 *)
Definition b_gulp_pool (c : Ctx) (x : Ext) (pool : Addr) : res (Z * Ext) :=
  let? _ := need_auth c pool in
  let pe := get_pemis x pool in
  assert! (negb (pe =? 0)) else BackE 1000 in
  assert! (bs_init (x_bs x)) else Trap in
  let blnd := bs_blnd (x_bs x) in
  let? nt := i128 (allowance c (x_tok x) blnd bs_addr pool + pe) in
  let? ns := u32 (c_seq c + LEDGER_BUMP_USER) in
  let? t := approve (as_contract c bs_addr) (x_tok x) blnd bs_addr pool nt ns in
  let x := set_pemis (x <| x_tok := t |>) pool 0 in
  Ok (pe, add_log (EvHandOver pool pe) x).

(** ** Claim: backstop/src/emissions/claim.rs *)

(** first loop of [execute_claim]: claim.rs 18-25; accumulates (claimed, claims) *)
Definition claim_one (c : Ctx) (from : Addr) (acc : Z * gmap Addr Z * Ext) (p : Addr)
  : res (Z * gmap Addr Z * Ext) :=
  let '(claimed, claims, x) := acc in
  let? '(a, x) := b_emissions c x p (get_pb x p) from (get_ub x p from) true in
  let? claimed := i128 (claimed + a) in
  Ok (claimed, <[p := a]> claims, add_log (EvBClaim p from a) x).

(** second loop of [execute_claim]: claim.rs 55-74 *)
Definition claim_dep (claimed lp_out : Z) (claims : gmap Addr Z) (to : Addr) (x : Ext) (p : Addr)
  : res Ext :=
  let? a := unwrap (claims !! p) in
  let? dep := fmul_floor lp_out a claimed in
  let pb := get_pb x p in
  let ub := get_ub x p to in
  let? m := to_shares pb dep in
  let? pb := pb_deposit pb dep m in
  let? ub := ub_add ub m in
  Ok (set_ub (set_pb x p pb) p to ub).

(** [claim]: contract.rs 302-310, [execute_claim]: claim.rs 11-78.  The Comet
    single-sided deposit (claim.rs 28-54) moves the claimed BLND from the backstop
    to the LP contract and mints [lp_out] LP tokens to the backstop; [lp_out] is
    chosen by the environment.  The short-lived BLND allowance it uses is consumed
    in the same call and not modelled. *)
Definition b_claim (c : Ctx) (x : Ext) (from : Addr) (pools : list Addr) (to : Addr) (lp_out : Z)
  : res (Z * Ext) :=
  let? _ := need_auth c from in
  assert! (negb (Z.of_nat (length pools) =? 0)) else BackE 1000 in
  let? '(claimed, claims, x) := foldM (claim_one c from) (0, ∅, x) pools in
  if 0 <? claimed then
    assert! (bs_init (x_bs x)) else Trap in
    let blnd := bs_blnd (x_bs x) in
    let lp := bs_token (x_bs x) in
    let? t := tok_move (x_tok x) blnd bs_addr lp claimed in
    let? t := mint t lp bs_addr lp_out in
    let x := x <| x_tok := t |> <| x_lp_supply := x_lp_supply x + lp_out |> in
    let? x := foldM (claim_dep claimed lp_out claims to) x pools in
    Ok (claimed, x)
  else Ok (claimed, x).
