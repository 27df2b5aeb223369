(** * Reserves: pool/src/pool/interest.rs, reserve.rs *)
From Verif Require Import Base Types.

(** [require_nonnegative]: pool/src/validator.rs 12-16 *)
Definition p_nonneg (v : Z) : res unit := if v <? 0 then Err (PoolE 8) else Ok tt.

(** ** Interest: pool/src/pool/interest.rs *)

(** the current interest rate (7 decimals): interest.rs 29-68 *)
Definition cur_rate (cfg : ResConfig) (util ir_mod : Z) : res Z :=
  let target := rc_util cfg in
  if util <=? target then                                   (* 31-42 *)
    let? us := fdiv_ceil util target SCALAR_7 in
    let? b := fmul_ceil us (rc_r_one cfg) SCALAR_7 in
    let? base := i128 (b + rc_r_base cfg) in
    fmul_ceil base ir_mod SCALAR_9
  else if util <=? 9500000 then                             (* 43-55 *)
    let? us := fdiv_ceil (util - target) (9500000 - target) SCALAR_7 in
    let? b := fmul_ceil us (rc_r_two cfg) SCALAR_7 in
    let? b1 := i128 (b + rc_r_one cfg) in
    let? base := i128 (b1 + rc_r_base cfg) in
    fmul_ceil base ir_mod SCALAR_9
  else                                                      (* 56-68 *)
    let? us := fdiv_ceil (util - 9500000) 500000 SCALAR_7 in
    let? extra := fmul_ceil us (rc_r_three cfg) SCALAR_7 in
    let? s1 := u32 (rc_r_two cfg + rc_r_one cfg) in
    let? s2 := u32 (s1 + rc_r_base cfg) in
    let? inter := fmul_ceil ir_mod s2 SCALAR_9 in
    i128 (extra + inter).

(** the new rate modifier: interest.rs 70-105; [dts] is [delta_time_scaled] *)
Definition next_ir_mod (cfg : ResConfig) (util ir_mod dts : Z) : res Z :=
  let? ud := i128 ((util - rc_util cfg) * 100) in
  if 0 <=? ud then
    let? ue := fmul_floor dts ud SCALAR_9 in
    let? rd := fmul_floor ue (rc_reactivity cfg) SCALAR_7 in
    let? n := i128 (ir_mod + rd) in
    Ok (if 10 * SCALAR_9 <? n then 10 * SCALAR_9 else n)
  else
    let? ue := fmul_ceil dts ud SCALAR_9 in
    let? rd := fmul_ceil ue (rc_reactivity cfg) SCALAR_7 in
    let? n := i128 (ir_mod + rd) in
    Ok (if n <? Z.quot SCALAR_9 10 then Z.quot SCALAR_9 10 else n).

(** [calc_accrual]: interest.rs 22-116; returns (loan accrual, new ir_mod) *)
Definition calc_accrual (now : Z) (cfg : ResConfig) (util ir_mod last : Z) : res (Z * Z) :=
  let? ir := cur_rate cfg util ir_mod in
  let? dt := u64 (now - last) in
  let? dts := i128 (dt * SCALAR_9) in
  let? nm := next_ir_mod cfg util ir_mod dts in
  let tw := Z.quot dts SECONDS_PER_YEAR in
  let? ir100 := i128 (ir * 100) in
  let? g := fmul_ceil tw ir100 SCALAR_9 in
  let? acc := i128 (SCALAR_9 + g) in
  Ok (acc, nm).

(** ** Reserve: pool/src/pool/reserve.rs 13-29 *)
Record Reserve := mkReserve {
  r_asset : Addr;
  r_index : Z;
  r_l_factor : Z;
  r_c_factor : Z;
  r_max_util : Z;
  r_scalar : Z;
  r_data : ResData     (* last_time, rates, ir_mod, supplies and backstop credit *)
}.
#[export] Instance eta_Reserve : Settable _ := settable! mkReserve
  <r_asset; r_index; r_l_factor; r_c_factor; r_max_util; r_scalar; r_data>.

(** conversions: reserve.rs 153-238 *)
Definition asset_from_d (d : ResData) (n : Z) : res Z := fmul_ceil n (rd_d_rate d) SCALAR_9.   (* 159-163 *)
Definition asset_from_b (d : ResData) (n : Z) : res Z := fmul_floor n (rd_b_rate d) SCALAR_9.  (* 169-173 *)
Definition eff_asset_from_d (r : Reserve) (n : Z) : res Z :=                                   (* 180-185 *)
  let? a := asset_from_d (r_data r) n in fdiv_ceil a (r_l_factor r) SCALAR_7.
Definition eff_asset_from_b (r : Reserve) (n : Z) : res Z :=                                   (* 192-197 *)
  let? a := asset_from_b (r_data r) n in fmul_floor a (r_c_factor r) SCALAR_7.
Definition d_up (d : ResData) (n : Z) : res Z := fdiv_ceil n (rd_d_rate d) SCALAR_9.           (* 203-207 *)
Definition d_down (d : ResData) (n : Z) : res Z := fdiv_floor n (rd_d_rate d) SCALAR_9.        (* 213-217 *)
Definition b_up (d : ResData) (n : Z) : res Z := fdiv_ceil n (rd_b_rate d) SCALAR_9.           (* 223-227 *)
Definition b_down (d : ResData) (n : Z) : res Z := fdiv_floor n (rd_b_rate d) SCALAR_9.        (* 233-237 *)

(** totals and utilization: reserve.rs 130-151 *)
Definition total_liab (d : ResData) : res Z := asset_from_d d (rd_d_supply d).   (* 144-146 *)
Definition total_supply (d : ResData) : res Z := asset_from_b d (rd_b_supply d). (* 149-151 *)
Definition utilization (d : ResData) : res Z :=                                  (* 130-134 *)
  let? l := total_liab d in
  let? s := total_supply d in
  fdiv_ceil l s SCALAR_7.

(** interest accrual part of [Reserve::load]: reserve.rs 62-113 *)
Definition accrue (now : Z) (rate : Z) (cfg : ResConfig) (d : ResData) : res ResData :=
  if now =? rd_last_time d then Ok d
  else if rd_b_supply d =? 0 then Ok (d <| rd_last_time := now |>)
  else
    let? util := utilization d in
    if util =? 0 then Ok (d <| rd_last_time := now |>)
    else
      let? '(la, nm) := calc_accrual now cfg util (rd_ir_mod d) (rd_last_time d) in
      let? pre_s := total_supply d in
      let? pre_l := total_liab d in
      let? ndr := fmul_ceil la (rd_d_rate d) SCALAR_9 in
      let d := d <| rd_ir_mod := nm |> <| rd_d_rate := ndr |> in
      let? post_l := total_liab d in
      let? acc := i128 (post_l - pre_l) in
      if 0 <? acc then
        let? nc := (if 0 <? rate then fmul_floor acc rate SCALAR_7 else Ok 0) in
        let? cr := i128 (rd_credit d + nc) in
        let? t1 := i128 (pre_s + acc) in
        let? t2 := i128 (t1 - nc) in
        let? nbr := fdiv_floor t2 (rd_b_supply d) SCALAR_9 in
        Ok (d <| rd_credit := cr |> <| rd_b_rate := nbr |> <| rd_last_time := now |>)
      else Ok (d <| rd_last_time := now |>).

(** [Reserve::load]: reserve.rs 43-113 *)
Definition load_res (now : Z) (pcfg : PoolConfig) (p : PoolSt) (a : Addr) : res Reserve :=
  let? cfg := unwrap (ps_rcfg p !! a) in
  let? d := unwrap (ps_rdata p !! a) in
  let? sc := pow10 (rc_decimals cfg) in
  let? d := accrue now (pc_bstop_rate pcfg) cfg d in
  Ok (mkReserve a (rc_index cfg) (rc_l_factor cfg) (rc_c_factor cfg) (rc_max_util cfg) sc d).

(** [Reserve::store]: reserve.rs 116-127 *)
Definition store_res (p : PoolSt) (r : Reserve) : PoolSt :=
  p <| ps_rdata := <[r_asset r := r_data r]> (ps_rdata p) |>.

(** [require_utilization_below_max]: reserve.rs 137-141 *)
Definition require_util (r : Reserve) : res unit :=
  let? u := utilization (r_data r) in
  if r_max_util r <? u then Err (PoolE 1207) else Ok tt.

(** ** Pool cache: pool/src/pool/pool.rs 13-19 *)
Record Cache := mkCache {
  ch_cfg : PoolConfig;
  ch_res : gmap Addr Reserve;       (* reserves *)
  ch_store : list Addr;             (* reserves_to_store *)
  ch_dec : option Z;                (* price_decimals *)
  ch_price : gmap Addr Z            (* prices *)
}.
#[export] Instance eta_Cache : Settable _ := settable! mkCache <ch_cfg; ch_res; ch_store; ch_dec; ch_price>.

(** [Pool::load]: pool.rs 23-32 *)
Definition pool_load (p : PoolSt) : Cache := mkCache (ps_config p) ∅ [] None ∅.

(** [load_reserve]: pool.rs 40-50 *)
Definition load_reserve (now : Z) (p : PoolSt) (ch : Cache) (a : Addr) (store : bool)
  : res (Reserve * Cache) :=
  let ch := if store && negb (existsb (Z.eqb a) (ch_store ch))
            then ch <| ch_store := ch_store ch ++ [a] |> else ch in
  match ch_res ch !! a with
  | Some r => Ok (r, ch)
  | None => let? r := load_res now (ch_cfg ch) p a in Ok (r, ch)
  end.

(** [cache_reserve]: pool.rs 56-58 *)
Definition cache_reserve (ch : Cache) (r : Reserve) : Cache :=
  ch <| ch_res := <[r_asset r := r]> (ch_res ch) |>.

(** [store_cached_reserves]: pool.rs 61-69 *)
Definition store_cached (p : PoolSt) (ch : Cache) : res PoolSt :=
  foldM (fun p a => let? r := unwrap_or (ch_res ch !! a) (PoolE 1209) in Ok (store_res p r))
    p (ch_store ch).

(** [require_action_allowed]: pool.rs 75-82 *)
Definition require_action (ch : Cache) (t : Z) : res unit :=
  let s := pc_status (ch_cfg ch) in
  if ((1 <? s) && ((t =? 4) || (t =? 9))) || ((3 <? s) && ((t =? 2) || (t =? 0)))
  then Err (PoolE 1206) else Ok tt.

(** [effective_count]: pool/src/pool/user.rs 30-32 *)
Definition eff_count (pos : Positions) : Z :=
  Z.of_nat (size (po_liab pos)) + Z.of_nat (size (po_coll pos)).

(** [require_under_max]: pool.rs 93-98 *)
Definition require_under_max (ch : Cache) (pos : Positions) (prev : Z) : res unit :=
  let n := eff_count pos in
  if (prev <? n) && (pc_max_positions (ch_cfg ch) <? n) then Err (PoolE 1208) else Ok tt.

(** [load_price_decimals]: pool.rs 102-110 *)
Definition load_dec (x : Ext) (ch : Cache) : res (Z * Cache) :=
  match ch_dec ch with
  | Some d => Ok (d, ch)
  | None => let? d := unwrap (o_dec (x_orc x) !! pc_oracle (ch_cfg ch)) in
            Ok (d, ch <| ch_dec := Some d |>)
  end.

(** [load_price]: pool.rs 119-131 *)
Definition load_price (now : Z) (x : Ext) (ch : Cache) (a : Addr) : res (Z * Cache) :=
  match ch_price ch !! a with
  | Some p => Ok (p, ch)
  | None =>
      let? pd := unwrap (o_price (x_orc x) !! (pc_oracle (ch_cfg ch), a)) in
      let? t := u64 (snd pd + 24 * 60 * 60) in
      assert! (negb (t <? now)) else PoolE 1210 in
      Ok (fst pd, ch <| ch_price := <[a := fst pd]> (ch_price ch) |>)
  end.
