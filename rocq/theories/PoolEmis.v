(** * Pool emissions: pool/src/emissions/manager.rs and the claim of
      pool/src/emissions/distributor.rs *)
From Verif Require Import Base Types Token Emitter Factory Backstop PoolReserve PoolUser PoolHealth PoolAuction.

(** [ReserveEmissionMetadata]: manager.rs 19-23 *)
Record EmisMeta := mkEmisMeta { em_res_index : Z; em_res_type : Z; em_share : Z }.

(** loop body of [set_pool_emissions]: manager.rs 40-47; the accumulator is
    (pool_emissions, total_share) *)
Definition emis_meta_one (l : list Addr) (s : gmap Z Z * Z) (m : EmisMeta) : res (gmap Z Z * Z) :=
  let? k0 := u32 (em_res_index m * 2) in
  let? key := u32 (k0 + em_res_type m) in
  assert! (negb ((1 <? em_res_type m) || negb (is_ok (list_get l (em_res_index m))))) else PoolE 1200 in
  let? tot := u64 (snd s + em_share m) in
  Ok (<[key := em_share m]> (fst s), tot).

(** [set_pool_emissions]: manager.rs 35-54; auth contract.rs 371-376 *)
Definition p_set_emis (c : Ctx) (p : PoolSt) (ms : list EmisMeta) : res PoolSt :=
  let? _ := need_auth c (ps_admin p) in
  let? '(m, tot) := foldM (emis_meta_one (ps_list p)) (∅, 0) ms in
  assert! (negb (SCALAR_7 <? tot)) else PoolE 1200 in
  Ok (p <| ps_pemis := m |>).

(** [update_reserve_emission_config]: manager.rs 87-141 *)
Definition update_res_ecfg (now : Z) (p : PoolSt) (a : Addr) (id new : Z) : res PoolSt :=
  let? '(lft, p) :=
    (match ps_ecfg p !! id with
     | Some cfg =>
         let? rc := unwrap (ps_rcfg p !! a) in
         let? rd := unwrap (ps_rdata p !! a) in
         let supply := if id mod 2 =? 0 then rd_d_supply rd else rd_b_supply rd in
         let? sc := pow10 (rc_decimals rc) in
         let? '(d, p) := update_edata now p id supply sc cfg in
         let p := if negb (ed_last d =? now) then set_edata p id (mkEmisData (ed_index d) now) else p in
         if now <? ec_exp cfg then
           let? dt := u64 (ec_exp cfg - now) in
           let? r := u64 (ec_eps cfg * dt) in
           let? l := i128 (new + r) in
           Ok (l, p)
         else Ok (new, p)
     | None => Ok (new, set_edata p id (mkEmisData 0 now))
     end) in
  let? e := u64 (now + 7 * 24 * 60 * 60) in
  let? eps := u64 (Z.quot lft (7 * 24 * 60 * 60)) in
  Ok (set_ecfg p id (mkEmisConfig e eps)).

(** loop body of [do_gulp_emissions]: manager.rs 77-84 *)
Definition gulp_res (now new : Z) (p : PoolSt) (e : Z * Z) : res PoolSt :=
  let? a := list_get (ps_list p) (Z.quot (fst e) 2) in
  let? n := fmul_floor (snd e) new SCALAR_7 in
  update_res_ecfg now p a (fst e) n.

(** [do_gulp_emissions]: manager.rs 70-85 *)
Definition do_gulp (now : Z) (p : PoolSt) (new : Z) : res PoolSt :=
  assert! (negb (new <? SCALAR_7)) else PoolE 1200 in
  foldM (gulp_res now new) p (entries (ps_pemis p)).

(** [gulp_emissions]: contract.rs 362-369, manager.rs 62-68 *)
Definition p_gulp (c : Ctx) (self : Addr) (px : PX) : res (Z * PX) :=
  let? '(new, x) := to_backstop (px_p px) (b_gulp_pool (as_contract c self) (px_x px) self) in
  let? p := do_gulp (c_now c) (px_p px) new in
  Ok (new, mkPX p x).

(** loop body of [execute_claim]: distributor.rs 19-50; the accumulator is
    (to_claim, storage).  [from_state] is loaded once before the loop. *)
Definition p_claim_one (now : Z) (from : Addr) (pos : Positions) (l : list Addr) (s : Z * PoolSt) (id : Z)
  : res (Z * PoolSt) :=
  let '(tot, p) := s in
  let i := Z.quot id 2 in
  let? a := unwrap_or (l !! Z.to_nat i) (PoolE 1200) in
  let? rc := unwrap (ps_rcfg p !! a) in
  let? rd := unwrap (ps_rdata p !! a) in
  let? bs := (if id mod 2 =? 0 then Ok (get_liab pos i, rd_d_supply rd)
              else let? t := get_total pos i in Ok (t, rd_b_supply rd)) in
  let? sc := pow10 (rc_decimals rc) in
  let? '(n, p) := p_emissions now p id (snd bs) sc from (fst bs) true in
  let? tot := i128 (tot + n) in
  Ok (tot, p).

(** [claim]: contract.rs 378-390, [execute_claim]: distributor.rs 15-63 *)
Definition p_claim (c : Ctx) (self : Addr) (px : PX) (from : Addr) (ids : list Z) (to : Addr)
  : res (Z * PX) :=
  let? _ := need_auth c from in
  let p := px_p px in
  let? '(tot, p') := foldM (p_claim_one (c_now c) from (get_pos p from) (ps_list p)) (0, p) ids in
  if 0 <? tot then
    let? t := transfer_from (as_contract c self) (x_tok (px_x px)) (ps_blnd p) self (ps_backstop p) to tot in
    Ok (tot, mkPX p' ((px_x px) <| x_tok := t |>))
  else Ok (tot, mkPX p' (px_x px)).
