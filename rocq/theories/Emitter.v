(** * Emitter contract: emitter/src *)
From Verif Require Import Base Types Token.

(** mint BLND as the emitter (the emitter is the admin of the BLND token) and
    log it; [StellarAssetClient::mint] *)
Definition em_mint (x : Ext) (to : Addr) (amt : Z) : res Ext :=
  let tok := em_blnd (x_em x) in
  let? t := mint (x_tok x) tok to amt in
  Ok (add_log (EvMint tok to amt) (x <| x_tok := t |>)).

(** [storage::get_last_distro_time]: emitter/src/storage.rs 160-166; also the
    entry point [get_last_distro], contract.rs 104-106 *)
Definition em_get_last (x : Ext) (b : Addr) : res Z := unwrap (em_last (x_em x) !! b).

Definition set_em (x : Ext) (f : EmitterSt -> EmitterSt) : Ext := x <| x_em := f (x_em x) |>.

(** [initialize]: emitter/src/contract.rs 77-89 *)
Definition em_initialize (c : Ctx) (x : Ext) (blnd backstop token : Addr) : res Ext :=
  assert! (negb (em_init (x_em x))) else EmitE 3 in
  Ok (set_em x (fun s => s <| em_blnd := blnd |> <| em_backstop := backstop |> <| em_token := token |>
        <| em_last := <[backstop := c_now c]> (em_last s) |> <| em_init := true |>)).

(** [execute_distribute]: emitter/src/emitter.rs 6-18 *)
Definition em_execute_distribute (c : Ctx) (x : Ext) (backstop : Addr) : res (Z * Ext) :=
  let? last := em_get_last x backstop in
  let? dt := u64 (c_now c - last) in
  let? amt := i128 (dt * SCALAR_7) in
  let x := set_em x (fun s => s <| em_last := <[backstop := c_now c]> (em_last s) |>) in
  let? x := em_mint x backstop amt in
  Ok (amt, x).

(** [distribute]: emitter/src/contract.rs 91-102; an uninitialized emitter has
    no Backstop entry, so the read traps *)
Definition em_distribute (c : Ctx) (x : Ext) : res (Z * Ext) :=
  assert! (em_init (x_em x)) else Trap in
  em_execute_distribute c x (em_backstop (x_em x)).

(** [is_new_backstop_is_larger]: emitter/src/backstop_manager.rs 17-24 *)
Definition em_is_larger (x : Ext) (new_backstop backstop : Addr) : bool :=
  let tok := em_token (x_em x) in
  balance (x_tok x) tok backstop <? balance (x_tok x) tok new_backstop.

(** [execute_queue_swap_backstop]: backstop_manager.rs 27-49 *)
Definition em_queue_swap (c : Ctx) (x : Ext) (new_backstop new_token : Addr) : res Ext :=
  assert! (match em_swap (x_em x) with None => true | Some _ => false end) else EmitE 1103 in
  assert! (em_init (x_em x)) else Trap in
  assert! (em_is_larger x new_backstop (em_backstop (x_em x))) else EmitE 1100 in
  let? unlock := u64 (c_now c + 31 * 24 * 60 * 60) in
  Ok (set_em x (fun s => s <| em_swap := Some (mkSwap new_backstop new_token unlock) |>)).

(** [execute_cancel_swap_backstop]: backstop_manager.rs 52-63 *)
Definition em_cancel_swap (c : Ctx) (x : Ext) : res Ext :=
  let? sw := unwrap_or (em_swap (x_em x)) (EmitE 1102) in
  assert! (negb (em_is_larger x (sw_backstop sw) (em_backstop (x_em x)))) else EmitE 1105 in
  Ok (set_em x (fun s => s <| em_swap := None |>)).

(** [execute_swap_backstop]: backstop_manager.rs 66-91 *)
Definition em_swap_backstop (c : Ctx) (x : Ext) : res Ext :=
  let? sw := unwrap_or (em_swap (x_em x)) (EmitE 1102) in
  assert! (negb (c_now c <? sw_unlock sw)) else EmitE 1104 in
  let backstop := em_backstop (x_em x) in
  assert! (em_is_larger x (sw_backstop sw) backstop) else EmitE 1100 in
  let? '(_, x) := em_execute_distribute c x backstop in
  Ok (set_em x (fun s => s <| em_swap := None |> <| em_backstop := sw_backstop sw |>
        <| em_token := sw_token sw |>
        <| em_last := <[sw_backstop sw := c_now c]> (em_last s) |>)).

(** [execute_drop]: emitter/src/emitter.rs 21-44.  The sum loop (29-32) and the
    mint loop (40-42). *)
Definition em_drop (c : Ctx) (x : Ext) (l : list (Addr * Z)) : res Ext :=
  assert! (em_init (x_em x)) else Trap in
  let backstop := em_backstop (x_em x) in
  let? _ := need_auth c backstop in
  assert! (negb (bool_decide (backstop ∈ em_dropped (x_em x)))) else EmitE 1101 in
  let? total := foldM (fun s p => i128 (s + p.2)) 0 l in
  assert! (negb (50000000 * SCALAR_7 <? total)) else EmitE 1101 in
  let? x := foldM (fun x p => em_mint x p.1 p.2) x l in
  Ok (set_em x (fun s => s <| em_dropped := {[ backstop ]} ∪ em_dropped s |>)).
