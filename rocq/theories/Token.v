(** * Token: SEP-41 tokens (dependency of all contracts)

    Standard behaviour of the Stellar asset contract: amounts are non-negative,
    balances and allowances are sufficient, arithmetic is checked.  Freezing,
    clawback and fees on transfer are not modelled. *)
From Verif Require Import Base Types.

Definition balance (t : Tok) (tok a : Addr) : Z := default 0 (tk_bal t !! (tok, a)).

Definition set_balance (t : Tok) (tok a : Addr) (v : Z) : Tok :=
  t <| tk_bal := <[(tok, a) := v]> (tk_bal t) |>.

(** move [amt] from [from] to [to], no authorization check *)
Definition tok_move (t : Tok) (tok from to : Addr) (amt : Z) : res Tok :=
  assert! (0 <=? amt) else TokE in
  assert! (amt <=? balance t tok from) else TokE in
  let t1 := set_balance t tok from (balance t tok from - amt) in
  let? nb := i128 (balance t1 tok to + amt) in
  Ok (set_balance t1 tok to nb).

(** [TokenClient::transfer] *)
Definition transfer (c : Ctx) (t : Tok) (tok from to : Addr) (amt : Z) : res Tok :=
  let? _ := need_auth c from in
  tok_move t tok from to amt.

(** [TokenClient::allowance]: an expired allowance reads as 0 *)
Definition allowance (c : Ctx) (t : Tok) (tok from spender : Addr) : Z :=
  match tk_allow t !! (tok, from, spender) with
  | Some (a, live) => if live <? c_seq c then 0 else a
  | None => 0
  end.

Definition set_allow (t : Tok) (tok from spender : Addr) (a live : Z) : Tok :=
  t <| tk_allow := <[(tok, from, spender) := (a, live)]> (tk_allow t) |>.

(** [TokenClient::approve] *)
Definition approve (c : Ctx) (t : Tok) (tok from spender : Addr) (amt live : Z) : res Tok :=
  let? _ := need_auth c from in
  assert! (0 <=? amt) else TokE in
  assert! ((amt =? 0) || (c_seq c <=? live)) else TokE in
  Ok (set_allow t tok from spender amt live).

(** [TokenClient::transfer_from] *)
Definition transfer_from (c : Ctx) (t : Tok) (tok spender from to : Addr) (amt : Z) : res Tok :=
  let? _ := need_auth c spender in
  assert! (0 <=? amt) else TokE in
  let al := allowance c t tok from spender in
  assert! (amt <=? al) else TokE in
  let t1 := match tk_allow t !! (tok, from, spender) with
            | Some (_, live) => if amt =? 0 then t else set_allow t tok from spender (al - amt) live
            | None => t
            end in
  tok_move t1 tok from to amt.

(** [StellarAssetClient::mint], called by the token's admin *)
Definition mint (t : Tok) (tok to : Addr) (amt : Z) : res Tok :=
  assert! (0 <=? amt) else TokE in
  let? nb := i128 (balance t tok to + amt) in
  Ok (set_balance t tok to nb).

(** burn by the holder *)
Definition burn (c : Ctx) (t : Tok) (tok from : Addr) (amt : Z) : res Tok :=
  let? _ := need_auth c from in
  assert! (0 <=? amt) else TokE in
  assert! (amt <=? balance t tok from) else TokE in
  Ok (set_balance t tok from (balance t tok from - amt)).
