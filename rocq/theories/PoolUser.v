(** * User positions and pool emissions:
      pool/src/pool/user.rs, pool/src/emissions/distributor.rs *)
From Verif Require Import Base Types Token PoolReserve.

(** ** Emissions: pool/src/emissions/distributor.rs *)

Definition set_edata (p : PoolSt) (id : Z) (d : EmisData) : PoolSt :=
  p <| ps_edata := <[id := d]> (ps_edata p) |>.
Definition set_ecfg (p : PoolSt) (id : Z) (d : EmisConfig) : PoolSt :=
  p <| ps_ecfg := <[id := d]> (ps_ecfg p) |>.
Definition set_uemis (p : PoolSt) (u : Addr) (id : Z) (d : UserEmis) : PoolSt :=
  p <| ps_uemis := <[(u, id) := d]> (ps_uemis p) |>.

(** [update_emission_data_with_config]: distributor.rs 166-199 *)
Definition update_edata (now : Z) (p : PoolSt) (id supply scalar : Z) (cfg : EmisConfig)
  : res (EmisData * PoolSt) :=
  let? d := unwrap (ps_edata p !! id) in
  if (ec_exp cfg <=? ed_last d) || (now =? ed_last d) || (ec_eps cfg =? 0) || (supply =? 0)
  then Ok (d, p)
  else
    let t := if ec_exp cfg <? now then ec_exp cfg else now in
    let? dt := u64 (t - ed_last d) in
    let? tk := i128 (dt * ec_eps cfg) in
    let? add := fdiv_floor tk supply scalar in
    let? idx := i128 (add + ed_index d) in
    let nd := mkEmisData idx t in
    Ok (nd, set_edata p id nd).

(** [set_user_emissions]: distributor.rs 236-256 *)
Definition set_user_emis (p : PoolSt) (u : Addr) (id idx acc : Z) (claim : bool) : Z * PoolSt :=
  if claim then (acc, set_uemis p u id (mkUserEmis idx 0))
  else (0, set_uemis p u id (mkUserEmis idx acc)).

(** [update_user_emissions]: distributor.rs 201-234 *)
Definition update_user_emis (p : PoolSt) (d : EmisData) (id scalar : Z) (u : Addr) (bal : Z)
  (claim : bool) : res (Z * PoolSt) :=
  match ps_uemis p !! (u, id) with
  | Some ud =>
      if negb (ue_index ud =? ed_index d) || claim then
        if bal =? 0 then Ok (set_user_emis p u id (ed_index d) (ue_accrued ud) claim)
        else
          let? di := i128 (ed_index d - ue_index ud) in
          let? _ := p_nonneg di in
          let? ta := fmul_floor bal di scalar in
          let? acc := i128 (ue_accrued ud + ta) in
          Ok (set_user_emis p u id (ed_index d) acc claim)
      else Ok (0, p)
  | None =>
      if bal =? 0 then Ok (set_user_emis p u id (ed_index d) 0 claim)
      else
        let? ta := fmul_floor bal (ed_index d) scalar in
        Ok (set_user_emis p u id (ed_index d) ta claim)
  end.

(** [update_emissions] (claim = false), distributor.rs 79-98, and
    [claim_emissions] (claim = true), 113-134, with [update_emission_data], 136-152 *)
Definition p_emissions (now : Z) (p : PoolSt) (id supply scalar : Z) (u : Addr) (bal : Z)
  (claim : bool) : res (Z * PoolSt) :=
  match ps_ecfg p !! id with
  | Some cfg =>
      let? '(d, p) := update_edata now p id supply scalar cfg in
      update_user_emis p d id scalar u bal claim
  | None => Ok (0, p)
  end.

(** ** Positions: pool/src/pool/user.rs *)

(** [storage::get_user_positions]: pool/src/storage.rs 199-208 *)
Definition get_pos (p : PoolSt) (u : Addr) : Positions := default no_positions (ps_pos p !! u).
(** [User::store]: user.rs 52-54 *)
Definition set_pos (p : PoolSt) (u : Addr) (pos : Positions) : PoolSt :=
  p <| ps_pos := <[u := pos]> (ps_pos p) |>.

Definition getz (m : gmap Z Z) (i : Z) : Z := default 0 (m !! i).
Definition get_liab (pos : Positions) (i : Z) : Z := getz (po_liab pos) i.   (* 62-64 *)
Definition get_coll (pos : Positions) (i : Z) : Z := getz (po_coll pos) i.   (* 99-101 *)
Definition get_sup (pos : Positions) (i : Z) : Z := getz (po_sup pos) i.     (* 136-138 *)
(** [get_total_supply]: user.rs 171-173 *)
Definition get_total (pos : Positions) (i : Z) : res Z := i128 (get_coll pos i + get_sup pos i).

(** [update_d_emissions]: user.rs 215-224 *)
Definition upd_d_emis (now : Z) (p : PoolSt) (u : Addr) (r : Reserve) (bal : Z) : res PoolSt :=
  let? '(_, p) := p_emissions now p (r_index r * 2) (rd_d_supply (r_data r)) (r_scalar r) u bal false in
  Ok p.
(** [update_b_emissions]: user.rs 226-235 *)
Definition upd_b_emis (now : Z) (p : PoolSt) (u : Addr) (r : Reserve) (bal : Z) : res PoolSt :=
  let? '(_, p) := p_emissions now p (r_index r * 2 + 1) (rd_b_supply (r_data r)) (r_scalar r) u bal false in
  Ok p.

Definition set_d_supply (r : Reserve) (v : Z) : Reserve := r <| r_data := r_data r <| rd_d_supply := v |> |>.
Definition set_b_supply (r : Reserve) (v : Z) : Reserve := r <| r_data := r_data r <| rd_b_supply := v |> |>.

(** store or delete at zero: user.rs 90-94 and the same pattern in 127-131, 162-166 *)
Definition put (m : gmap Z Z) (i v : Z) : gmap Z Z := if v =? 0 then delete i m else <[i := v]> m.

(** [add_liabilities]: user.rs 68-78 *)
Definition add_liabilities (now : Z) (p : PoolSt) (u : Addr) (pos : Positions) (r : Reserve) (amt : Z)
  : res (PoolSt * Positions * Reserve) :=
  assert! (negb (amt =? 0)) else PoolE 1218 in
  let bal := get_liab pos (r_index r) in
  let? p := upd_d_emis now p u r bal in
  let? nb := i128 (bal + amt) in
  let? ns := i128 (rd_d_supply (r_data r) + amt) in
  Ok (p, pos <| po_liab := <[r_index r := nb]> (po_liab pos) |>, set_d_supply r ns).

(** [remove_liabilities]: user.rs 82-96 *)
Definition remove_liabilities (now : Z) (p : PoolSt) (u : Addr) (pos : Positions) (r : Reserve) (amt : Z)
  : res (PoolSt * Positions * Reserve) :=
  assert! (negb (amt =? 0)) else PoolE 1219 in
  let bal := get_liab pos (r_index r) in
  let? p := upd_d_emis now p u r bal in
  let? nb := i128 (bal - amt) in
  let? _ := p_nonneg nb in
  let? ns := i128 (rd_d_supply (r_data r) - amt) in
  Ok (p, pos <| po_liab := put (po_liab pos) (r_index r) nb |>, set_d_supply r ns).

(** [add_collateral]: user.rs 105-115 *)
Definition add_collateral (now : Z) (p : PoolSt) (u : Addr) (pos : Positions) (r : Reserve) (amt : Z)
  : res (PoolSt * Positions * Reserve) :=
  assert! (negb (amt =? 0)) else PoolE 1216 in
  let bal := get_coll pos (r_index r) in
  let? tot := get_total pos (r_index r) in
  let? p := upd_b_emis now p u r tot in
  let? nb := i128 (bal + amt) in
  let? ns := i128 (rd_b_supply (r_data r) + amt) in
  Ok (p, pos <| po_coll := <[r_index r := nb]> (po_coll pos) |>, set_b_supply r ns).

(** [remove_collateral]: user.rs 119-133 *)
Definition remove_collateral (now : Z) (p : PoolSt) (u : Addr) (pos : Positions) (r : Reserve) (amt : Z)
  : res (PoolSt * Positions * Reserve) :=
  assert! (negb (amt =? 0)) else PoolE 1217 in
  let bal := get_coll pos (r_index r) in
  let? tot := get_total pos (r_index r) in
  let? p := upd_b_emis now p u r tot in
  let? nb := i128 (bal - amt) in
  let? _ := p_nonneg nb in
  let? ns := i128 (rd_b_supply (r_data r) - amt) in
  Ok (p, pos <| po_coll := put (po_coll pos) (r_index r) nb |>, set_b_supply r ns).

(** [add_supply]: user.rs 142-150 *)
Definition add_supply (now : Z) (p : PoolSt) (u : Addr) (pos : Positions) (r : Reserve) (amt : Z)
  : res (PoolSt * Positions * Reserve) :=
  assert! (negb (amt =? 0)) else PoolE 1216 in
  let bal := get_sup pos (r_index r) in
  let? tot := get_total pos (r_index r) in
  let? p := upd_b_emis now p u r tot in
  let? nb := i128 (bal + amt) in
  let? ns := i128 (rd_b_supply (r_data r) + amt) in
  Ok (p, pos <| po_sup := <[r_index r := nb]> (po_sup pos) |>, set_b_supply r ns).

(** [remove_supply]: user.rs 154-168 *)
Definition remove_supply (now : Z) (p : PoolSt) (u : Addr) (pos : Positions) (r : Reserve) (amt : Z)
  : res (PoolSt * Positions * Reserve) :=
  assert! (negb (amt =? 0)) else PoolE 1217 in
  let bal := get_sup pos (r_index r) in
  let? tot := get_total pos (r_index r) in
  let? p := upd_b_emis now p u r tot in
  let? nb := i128 (bal - amt) in
  let? _ := p_nonneg nb in
  let? ns := i128 (rd_b_supply (r_data r) - amt) in
  Ok (p, pos <| po_sup := put (po_sup pos) (r_index r) nb |>, set_b_supply r ns).

(** state threaded through position updates: (pool storage, cache, positions of
    the user being updated) *)
Definition Fl : Type := PoolSt * Cache * Positions.

(** one iteration of the loops of [rm_positions] / [add_positions] *)
Definition pos_step
  (f : Z -> PoolSt -> Addr -> Positions -> Reserve -> Z -> res (PoolSt * Positions * Reserve))
  (now : Z) (u : Addr) (s : Fl) (e : Addr * Z) : res Fl :=
  let '(p, ch, pos) := s in
  let? '(r, ch) := load_reserve now p ch (fst e) true in
  let? '(p, pos, r) := f now p u pos r (snd e) in
  Ok (p, cache_reserve ch r, pos).

(** [rm_positions]: user.rs 176-193 *)
Definition rm_positions (now : Z) (u : Addr) (s : Fl) (coll liab : gmap Addr Z) : res Fl :=
  let? s := foldM (pos_step remove_collateral now u) s (entries coll) in
  foldM (pos_step remove_liabilities now u) s (entries liab).

(** [add_positions]: user.rs 196-213 *)
Definition add_positions (now : Z) (u : Addr) (s : Fl) (coll liab : gmap Addr Z) : res Fl :=
  let? s := foldM (pos_step add_collateral now u) s (entries coll) in
  foldM (pos_step add_liabilities now u) s (entries liab).

(** [storage::get_res_list] + [get_unchecked(i)] *)
Definition list_get (l : list Addr) (i : Z) : res Addr :=
  if i <? 0 then Err Trap else unwrap (l !! Z.to_nat i).
