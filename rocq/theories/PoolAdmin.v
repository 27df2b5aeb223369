(** * Pool administration: pool/src/pool/config.rs, status.rs, contract.rs *)
From Verif Require Import Base Types Token Emitter Factory Backstop PoolReserve PoolUser PoolHealth PoolAuction.

(** a pool whose code is installed but whose [initialize] has not been called *)
Definition fresh_pool : PoolSt :=
  mkPoolSt false 0 0 0 (mkPoolConfig 0 0 0 0) [] ∅ ∅ ∅ ∅ ∅ ∅ ∅ ∅ ∅.

(** [initialize]: contract.rs 236-259, [execute_initialize]: config.rs 16-55; the
    name is not modelled *)
Definition p_initialize (c : Ctx) (p : PoolSt) (admin oracle rate max_positions backstop blnd : Z)
  : res PoolSt :=
  let? _ := need_auth c admin in
  assert! (negb (ps_init p)) else PoolE 3 in
  assert! (negb (SCALAR_7 <=? rate)) else PoolE 1201 in
  assert! (negb (max_positions <? 2)) else PoolE 1201 in
  Ok (p <| ps_admin := admin |> <| ps_backstop := backstop |>
        <| ps_config := mkPoolConfig oracle rate 6 max_positions |>
        <| ps_blnd := blnd |> <| ps_init := true |>).

(** [set_admin]: contract.rs 261-271 *)
Definition p_set_admin (c : Ctx) (p : PoolSt) (new_admin : Addr) : res PoolSt :=
  let? _ := need_auth c (ps_admin p) in
  let? _ := need_auth c new_admin in
  Ok (p <| ps_admin := new_admin |>).

(** [update_pool]: contract.rs 273-284, config.rs 58-67 *)
Definition p_update_pool (c : Ctx) (p : PoolSt) (rate max_positions : Z) : res PoolSt :=
  let? _ := need_auth c (ps_admin p) in
  assert! (negb (SCALAR_7 <=? rate)) else PoolE 1200 in
  Ok (p <| ps_config := ps_config p <| pc_bstop_rate := rate |> <| pc_max_positions := max_positions |> |>).

(** [require_valid_reserve_metadata]: config.rs 168-182 *)
Definition valid_metadata (m : ResConfig) : bool :=
  negb ((18 <? rc_decimals m) || (SCALAR_7 <? rc_c_factor m) || (SCALAR_7 <? rc_l_factor m)
        || (9500000 <? rc_util m)
        || ((SCALAR_7 <? rc_max_util m) || (rc_max_util m <=? rc_util m))
        || (10000000 <=? rc_r_base m) || (rc_r_base m <? 1000)
        || ((rc_r_two m <? rc_r_one m) || (rc_r_three m <? rc_r_two m))
        || (1000 <? rc_reactivity m)).

(** [queue_set_reserve]: contract.rs 286-297, config.rs 70-88 *)
Definition p_queue_reserve (c : Ctx) (p : PoolSt) (a : Addr) (m : ResConfig) : res PoolSt :=
  let? _ := need_auth c (ps_admin p) in
  assert! (negb (bool_decide (is_Some (ps_queue p !! a)))) else PoolE 1200 in
  assert! (valid_metadata m) else PoolE 1202 in
  let? unlock := (if negb (pc_status (ps_config p) =? 6) then u64 (c_now c + SECONDS_PER_WEEK)
                  else Ok (c_now c)) in
  Ok (p <| ps_queue := <[a := mkQueuedRes m unlock]> (ps_queue p) |>).

(** [cancel_set_reserve]: contract.rs 299-308, config.rs 91-93 *)
Definition p_cancel_reserve (c : Ctx) (p : PoolSt) (a : Addr) : res PoolSt :=
  let? _ := need_auth c (ps_admin p) in
  Ok (p <| ps_queue := delete a (ps_queue p) |>).

(** whether the interest parameters differ: config.rs 126-130 *)
Definition ir_changed (o n : ResConfig) : bool :=
  negb (rc_r_base o =? rc_r_base n) || negb (rc_r_one o =? rc_r_one n)
  || negb (rc_r_two o =? rc_r_two n) || negb (rc_r_three o =? rc_r_three n)
  || negb (rc_util o =? rc_util n).

(** [initialize_reserve]: config.rs 111-165, with [push_res_list]: storage.rs 474-491 *)
Definition initialize_reserve (now : Z) (p : PoolSt) (a : Addr) (m : ResConfig) : res (Z * PoolSt) :=
  let? '(idx, p) :=
    (match ps_rcfg p !! a with
     | Some old =>
         let? '(r, _) := load_reserve now p (pool_load p) a false in
         assert! (rc_decimals old =? rc_decimals m) else PoolE 1202 in
         let r := if ir_changed old m then r <| r_data := r_data r <| rd_ir_mod := SCALAR_9 |> |> else r in
         Ok (r_index r, store_res p r)
     | None =>
         assert! (negb (Z.of_nat (length (ps_list p)) =? 32)) else PoolE 1200 in
         Ok (Z.of_nat (length (ps_list p)),
             p <| ps_list := ps_list p ++ [a] |>
               <| ps_rdata := <[a := mkResData SCALAR_9 SCALAR_9 SCALAR_9 0 0 now 0]> (ps_rdata p) |>)
     end) in
  Ok (idx, p <| ps_rcfg := <[a := m <| rc_index := idx |>]> (ps_rcfg p) |>).

(** [set_reserve]: contract.rs 310-316, config.rs 96-108 *)
Definition p_set_reserve (c : Ctx) (p : PoolSt) (a : Addr) : res (Z * PoolSt) :=
  let? q := unwrap (ps_queue p !! a) in
  assert! (negb (c_now c <? qr_unlock q)) else PoolE 1203 in
  initialize_reserve (c_now c) (p <| ps_queue := delete a (ps_queue p) |>) a (qr_config q).

(** ** Status: pool/src/pool/status.rs *)

(** [execute_update_pool_status]: status.rs 11-66 (the decision, 25-63) *)
Definition next_status (status q4w : Z) (met : bool) : res Z :=
  match status with
  | 6 | 4 => Err (PoolE 1204)
  | 2 => Ok (if 7500000 <=? q4w then 5 else 2)
  | 0 => Ok (if negb met || (5000000 <=? q4w) then 3 else 0)
  | _ => Ok (if 6000000 <=? q4w then 5
             else if (3000000 <=? q4w) || negb met then 3 else 1)
  end.

Definition set_config (p : PoolSt) (s : Z) : PoolSt :=
  p <| ps_config := ps_config p <| pc_status := s |> |>.

(** [update_status]: contract.rs 342-349, status.rs 11-66 *)
Definition p_update_status (self : Addr) (p : PoolSt) (x : Ext) : res (Z * PoolSt) :=
  let? d := call_pool_data p x self in
  let? s := next_status (pc_status (ps_config p)) (pd_q4w_pct d) (negb (threshold d <? SCALAR_7)) in
  Ok (s, set_config p s).

(** [set_status]: contract.rs 351-358, status.rs 71-117 *)
Definition p_set_status (c : Ctx) (self : Addr) (p : PoolSt) (x : Ext) (s : Z) : res PoolSt :=
  let? _ := need_auth c (ps_admin p) in
  let? d := call_pool_data p x self in
  match s with
  | 0 => assert! (negb ((threshold d <? SCALAR_7) || (5000000 <=? pd_q4w_pct d))) else PoolE 1204 in
         Ok (set_config p 0)
  | 2 => assert! (negb (7500000 <=? pd_q4w_pct d)) else PoolE 1204 in Ok (set_config p 2)
  | 3 => assert! (negb (7500000 <=? pd_q4w_pct d)) else PoolE 1204 in Ok (set_config p 3)
  | 4 => Ok (set_config p 4)
  | _ => Err (PoolE 1200)
  end.
