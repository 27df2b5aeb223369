(** * Health factor: pool/src/pool/health_factor.rs *)
From Verif Require Import Base Types Token PoolReserve PoolUser.

(** [PositionData]: health_factor.rs 8-19 *)
Record PosData := mkPosData {
  hd_coll_base : Z; hd_coll_raw : Z; hd_liab_base : Z; hd_liab_raw : Z; hd_scalar : Z
}.

(** loop body of [calculate_from_positions] for reserve index [i] with asset
    [a]: health_factor.rs 36-72.  The accumulator is (collateral_base,
    collateral_raw, liability_base, liability_raw). *)
Definition health_one (now : Z) (p : PoolSt) (x : Ext) (pos : Positions)
  (s : (Z * Z * Z * Z) * Cache) (ia : Z * Addr) : res ((Z * Z * Z * Z) * Cache) :=
  let '((cb, cr, lb, lr), ch) := s in
  let b := get_coll pos (fst ia) in
  let d := get_liab pos (fst ia) in
  if (b =? 0) && (d =? 0) then Ok s
  else
    let? '(r, ch) := load_reserve now p ch (snd ia) false in
    let? '(price, ch) := load_price now x ch (r_asset r) in
    let? '(cb, cr) :=
      (if 0 <? b then
         let? ea := eff_asset_from_b r b in
         let? v := fmul_floor price ea (r_scalar r) in
         let? cb := i128 (cb + v) in
         let? ra := asset_from_b (r_data r) b in
         let? w := fmul_floor price ra (r_scalar r) in
         let? cr := i128 (cr + w) in
         Ok (cb, cr)
       else Ok (cb, cr)) in
    let? '(lb, lr) :=
      (if 0 <? d then
         let? ea := eff_asset_from_d r d in
         let? v := fmul_ceil price ea (r_scalar r) in
         let? lb := i128 (lb + v) in
         let? ra := asset_from_d (r_data r) d in
         let? w := fmul_ceil price ra (r_scalar r) in
         let? lr := i128 (lr + w) in
         Ok (lb, lr)
       else Ok (lb, lr)) in
    Ok ((cb, cr, lb, lr), cache_reserve ch r).

(** the reserve list with its indexes *)
Fixpoint indexed (i : Z) (l : list Addr) : list (Z * Addr) :=
  match l with [] => [] | a :: l' => (i, a) :: indexed (i + 1) l' end.

(** [calculate_from_positions]: health_factor.rs 27-82 *)
Definition position_data (now : Z) (p : PoolSt) (x : Ext) (ch : Cache) (pos : Positions)
  : res (PosData * Cache) :=
  let? '(dec, ch) := load_dec x ch in
  let? sc := pow10 dec in
  let? '((cb, cr, lb, lr), ch) :=
    foldM (health_one now p x pos) ((0, 0, 0, 0), ch) (indexed 0 (ps_list p)) in
  Ok (mkPosData cb cr lb lr sc, ch).

(** [as_health_factor]: health_factor.rs 85-89 *)
Definition as_hf (d : PosData) : res Z := fdiv_floor (hd_coll_base d) (hd_liab_base d) (hd_scalar d).

(** [is_hf_over]: health_factor.rs 93-102 *)
Definition is_hf_over (d : PosData) (max : Z) : res bool :=
  if hd_liab_base d =? 0 then Ok true
  else
    let? m := fmul_ceil (hd_scalar d) max SCALAR_7 in
    let? h := as_hf d in
    Ok (m <? h).

(** [is_hf_under]: health_factor.rs 106-118 *)
Definition is_hf_under (d : PosData) (min : Z) : res bool :=
  if hd_liab_base d =? 0 then Ok false
  else
    let? m := fmul_floor (hd_scalar d) min SCALAR_7 in
    let? h := as_hf d in
    Ok (h <? m).
