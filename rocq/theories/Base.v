(** * Base: results, machine integers, fixed point arithmetic

    Everything the four contracts share: the result of a host call, checked
    integer arithmetic (Cargo.toml of /repo: [overflow-checks = true] in the
    release profile, so an overflow is a trap) and the
    [soroban-fixed-point-math] operations. *)
From stdpp Require Export gmap list sorting.
From RecordUpdate Require Export RecordUpdate.
From Coq Require Export ZArith Lia Bool.
Global Open Scope Z_scope.

(** ** Results *)

(** Why a call failed.  [Trap] is a Rust panic (overflow, unwrap on None,
    division by zero, missing storage entry); the [E]-constructors carry the
    numeric contract error codes of the [errors.rs] file of each contract;
    [TokE] is an error raised by a token contract and [AuthE] a missing
    signature. *)
Inductive err : Set :=
| Trap
| PoolE (code : Z)
| BackE (code : Z)
| EmitE (code : Z)
| FacE (code : Z)
| TokE
| AuthE.

Inductive res (A : Type) : Type :=
| Ok (a : A)
| Err (e : err).
Arguments Ok {A} a.
Arguments Err {A} e.

Definition bind {A B} (m : res A) (k : A -> res B) : res B :=
  match m with Ok a => k a | Err e => Err e end.

Notation "'let?' x ':=' m 'in' k" := (bind m (fun x => k))
  (at level 200, x name, m at level 200, k at level 200, right associativity).
Notation "'let?' ' p ':=' m 'in' k" := (bind m (fun x => match x with p => k end))
  (at level 200, p strict pattern, m at level 200, k at level 200, right associativity).
(** [assert! b else e in k]: continue with [k] if [b] holds, fail with [e] otherwise *)
Notation "'assert!' b 'else' e 'in' k" := (if b then k else Err e)
  (at level 200, b at level 200, e at level 200, k at level 200, right associativity).

(** [unwrap_optimized] / [unwrap]: a missing value is a trap *)
Definition unwrap {A} (o : option A) : res A :=
  match o with Some a => Ok a | None => Err Trap end.
Definition unwrap_or {A} (o : option A) (e : err) : res A :=
  match o with Some a => Ok a | None => Err e end.

Definition is_ok {A} (r : res A) : bool := match r with Ok _ => true | Err _ => false end.

(** ** Machine integers *)

Definition i128_max : Z := 2 ^ 127 - 1.
Definition i128_min : Z := - 2 ^ 127.
Definition u64_max : Z := 2 ^ 64 - 1.
Definition u32_max : Z := 2 ^ 32 - 1.

Definition in_i128 (x : Z) : bool := (i128_min <=? x) && (x <=? i128_max).
Definition in_u64 (x : Z) : bool := (0 <=? x) && (x <=? u64_max).
Definition in_u32 (x : Z) : bool := (0 <=? x) && (x <=? u32_max).

(** result of an i128 / u64 / u32 operation whose exact result is [x] *)
Definition i128 (x : Z) : res Z := if in_i128 x then Ok x else Err Trap.
Definition u64 (x : Z) : res Z := if in_u64 x then Ok x else Err Trap.
Definition u32 (x : Z) : res Z := if in_u32 x then Ok x else Err Trap.

(** Rust [as u64] on an i128: truncation modulo 2^64 *)
Definition as_u64 (x : Z) : Z := x mod 2 ^ 64.
(** Rust [as u32]: truncation modulo 2^32 *)
Definition as_u32 (x : Z) : Z := x mod 2 ^ 32.

(** Rust [/] on i128: truncating division, trap on zero and on MIN / -1 *)
Definition div128 (x y : Z) : res Z :=
  if y =? 0 then Err Trap else i128 (Z.quot x y).

(** ** soroban-fixed-point-math 1.x (dependency, source not in /repo)

    [x.fixed_mul_floor(y, d)] = floor (x*y/d), [x.fixed_div_floor(y, d)] =
    floor (x*d/y), likewise [ceil]; the product is computed in i128 and every
    failure is an [unwrap_optimized] on [None].  The case analysis is the
    library's [div_floor] / [div_ceil]. *)
Definition div_floor (r z : Z) : res Z :=
  if z =? 0 then Err Trap
  else if (r <? 0) || ((0 <? r) && (z <? 0)) then
    i128 (Z.quot r z - (if 0 <? r mod (Z.abs z) then 1 else 0))
  else i128 (Z.quot r z).

Definition div_ceil (r z : Z) : res Z :=
  if z =? 0 then Err Trap
  else if (r <=? 0) || ((0 <? r) && (z <? 0)) then i128 (Z.quot r z)
  else i128 (Z.quot r z + (if 0 <? r mod (Z.abs z) then 1 else 0)).

Definition fmul_floor (x y d : Z) : res Z := let? r := i128 (x * y) in div_floor r d.
Definition fmul_ceil  (x y d : Z) : res Z := let? r := i128 (x * y) in div_ceil r d.
Definition fdiv_floor (x y d : Z) : res Z := let? r := i128 (x * d) in div_floor r y.
Definition fdiv_ceil  (x y d : Z) : res Z := let? r := i128 (x * d) in div_ceil r y.

(** ** Constants: pool/src/constants.rs, backstop/src/constants.rs *)
Definition SCALAR_9 : Z := 1000000000.
Definition SCALAR_7 : Z := 10000000.
Definition SECONDS_PER_YEAR : Z := 31536000.
Definition SECONDS_PER_WEEK : Z := 604800.

(** [10i128.pow(n)]: trap on overflow *)
Definition pow10 (n : Z) : res Z := i128 (10 ^ n).

(** ** Maps iterated in key order (Soroban [Map]) *)

(** insertion sort of association lists by key *)
Fixpoint kinsert {V} (k : Z) (v : V) (l : list (Z * V)) : list (Z * V) :=
  match l with
  | [] => [(k, v)]
  | (k', v') :: l' => if k <=? k' then (k, v) :: l else (k', v') :: kinsert k v l'
  end.
Fixpoint ksort {V} (l : list (Z * V)) : list (Z * V) :=
  match l with
  | [] => []
  | (k, v) :: l' => kinsert k v (ksort l')
  end.
(** the entries of a map in increasing key order *)
Definition entries {V} (m : gmap Z V) : list (Z * V) := ksort (map_to_list m).

(** monadic left fold: a Rust [for] loop whose body may fail *)
Fixpoint foldM {A S} (f : S -> A -> res S) (s : S) (l : list A) : res S :=
  match l with
  | [] => Ok s
  | a :: l' => let? s' := f s a in foldM f s' l'
  end.

(** ** Addresses

    Addresses are integers.  Fixed contracts get fixed addresses; pools deployed
    by the factory get negative addresses (see Factory.v); every other address is
    an account or a third-party contract. *)
Notation Addr := Z (only parsing).
Definition em_addr : Addr := 1.
Definition bs_addr : Addr := 2.
Definition fac_addr : Addr := 3.

(** ** Call context: ledger time, ledger sequence and who signed *)
Record Ctx := mkCtx { c_now : Z; c_seq : Z; c_auth : Addr -> bool }.

(** [a.require_auth()] (Soroban host) *)
Definition need_auth (c : Ctx) (a : Addr) : res unit :=
  if c_auth c a then Ok tt else Err AuthE.

(** the context seen by a contract called by contract [self]: [self] counts as
    having authorized the call *)
Definition as_contract (c : Ctx) (self : Addr) : Ctx :=
  mkCtx (c_now c) (c_seq c) (fun a => c_auth c a || (a =? self)).
