(** * Pool factory contract: pool-factory/src/pool_factory.rs

    The pool's address is derived by the host from the factory address and
    keccak256(salt ++ admin).  The model uses an injective encoding of (admin,
    salt) into negative odd integers ([collision freedom] of the hash).
    Deployment of a second contract at an address fails, as in the host. *)
From Verif Require Import Base Types.

(** address derivation: pool_factory.rs 87-104 *)
Definition dep_addr (admin salt : Z) : Addr :=
  - (2 * Z.pos (encode (admin, salt)) + 1).

(** [initialize]: pool_factory.rs 53-62 *)
Definition fa_initialize (x : Ext) (backstop blnd : Addr) : res Ext :=
  assert! (negb (fa_init (x_fac x))) else FacE 3 in
  Ok (x <| x_fac := x_fac x <| fa_backstop := backstop |> <| fa_blnd := blnd |> <| fa_init := true |> |>).

(** [deploy] up to the call of the pool's [initialize]: pool_factory.rs 73-100 *)
Definition fa_check_deploy (c : Ctx) (x : Ext) (admin rate max_positions : Z) : res unit :=
  let? _ := need_auth c admin in
  assert! (fa_init (x_fac x)) else Trap in
  assert! (negb (SCALAR_7 <=? rate)) else FacE 1300 in
  assert! (negb (max_positions <? 2)) else FacE 1300 in
  Ok tt.

(** [set_deployed]: pool-factory/src/storage.rs 90-98 *)
Definition fa_set_deployed (x : Ext) (a : Addr) : Ext :=
  x <| x_fac := x_fac x <| fa_deployed := {[ a ]} ∪ fa_deployed (x_fac x) |> |>.

(** [is_pool]: pool_factory.rs 114-117 *)
Definition fa_is_pool (x : Ext) (a : Addr) : bool := bool_decide (a ∈ fa_deployed (x_fac x)).
