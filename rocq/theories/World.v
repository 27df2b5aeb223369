(** * World: the contracts together, operations and histories

    A world holds the ledger clock, the storage of emitter, backstop, factory,
    tokens and oracle ([Ext]) and the storage of every installed pool contract.
    One operation is one top-level transaction.  A transaction that fails leaves
    the world unchanged (Soroban rolls back every storage change of a failed
    transaction).  Transactions are executed one after the other, as by the
    ledger. *)
From Verif Require Import Base Types Token Emitter Factory Backstop PoolReserve PoolUser PoolHealth
  PoolAuction PoolSubmit PoolEmis PoolAdmin.

Record World := mkWorld {
  w_now : Z;                 (* ledger timestamp *)
  w_seq : Z;                 (* ledger sequence number *)
  w_ext : Ext;
  w_pools : gmap Addr PoolSt (* installed pool contracts *)
}.
#[export] Instance eta_World : Settable _ := settable! mkWorld <w_now; w_seq; w_ext; w_pools>.

(** ** Operations *)

(** calls of the emitter, the factory, the backstop and tokens *)
Inductive XOp :=
(* emitter/src/contract.rs 77-130 *)
| EInit (blnd backstop token : Addr)
| EDistribute
| EQueueSwap (backstop token : Addr)
| ECancelSwap
| ESwap
| EDrop (l : list (Addr * Z))
(* pool-factory/src/pool_factory.rs 53-62 *)
| FInit (backstop blnd : Addr)
(* backstop/src/contract.rs 180-346 *)
| BInit (token emitter usdc blnd factory : Addr) (drop : list (Addr * Z))
| BDeposit (from pool : Addr) (amt : Z)
| BQueue (from pool : Addr) (amt : Z)
| BDequeue (from pool : Addr) (amt : Z)
| BWithdraw (from pool : Addr) (amt : Z)
| BDraw (pool : Addr) (amt : Z) (to : Addr)
| BDonate (from pool : Addr) (amt : Z)
| BUpdTkn
| BDrop
| BAddReward (to_add to_remove : Addr)
| BGulp
| BGulpPool (pool : Addr)
| BClaim (from : Addr) (pools : list Addr) (to : Addr) (lp_out : Z)
(* tokens *)
| TTransfer (tok from to : Addr) (amt : Z)
| TApprove (tok from spender : Addr) (amt live : Z)
| TTransferFrom (tok spender from to : Addr) (amt : Z)
| TBurn (tok from : Addr) (amt : Z)
| TMint (tok to : Addr) (amt : Z).

(** calls of a pool: pool/src/contract.rs 236-430 *)
Inductive POp :=
| PInit (admin oracle rate max_positions backstop blnd : Z)
| PSetAdmin (new_admin : Addr)
| PUpdatePool (rate max_positions : Z)
| PQueueRes (asset : Addr) (cfg : ResConfig)
| PCancelRes (asset : Addr)
| PSetRes (asset : Addr)
| PSubmit (from spender to : Addr) (reqs : list Request)
| PBadDebt (user : Addr)
| PUpdateStatus
| PSetStatus (status : Z)
| PGulp
| PSetEmis (ms : list EmisMeta)
| PClaim (from : Addr) (ids : list Z) (to : Addr)
| PNewLiq (user : Addr) (pct : Z)
| PNewBadDebt
| PNewInterest (assets : list Addr).

Inductive Op :=
| OExt (signers : list Addr) (o : XOp)
| OPool (signers : list Addr) (pool : Addr) (o : POp)
| ODeploy (signers : list Addr) (admin salt oracle rate max_positions : Z)   (* factory deploy *)
| OInstall (pool : Addr)                      (* anyone installs the pool code *)
(* environment *)
| OTick (dt dseq : Z)                         (* the ledger closes *)
| OOracle (o : Oracle)                        (* price feeds change *)
| OLpSupply (n : Z)                           (* LP shares are minted or burned elsewhere *)
| OExpireAuction (pool : Addr) (t : Z) (u : Addr)   (* temporary storage expires *)
| OExpireQueue (pool asset : Addr)
| OExpireDrop.

(** what a successful call returns *)
Inductive Out :=
| OutUnit
| OutZ (z : Z)
| OutZZ (a b : Z)
| OutQ4W (q : Q4W)
| OutPos (p : Positions)
| OutAuction (a : Auction)
| OutAddr (a : Addr).

Definition ret_unit {A} (r : res A) : res (Out * A) := let? a := r in Ok (OutUnit, a).
Definition ret_z {A} (r : res (Z * A)) : res (Out * A) := let? '(z, a) := r in Ok (OutZ z, a).

(** ** Argument types: the host only passes values of the declared type *)
Definition ty_cfg (m : ResConfig) : bool :=
  in_u32 (rc_index m) && in_u32 (rc_decimals m) && in_u32 (rc_c_factor m) && in_u32 (rc_l_factor m)
  && in_u32 (rc_util m) && in_u32 (rc_max_util m) && in_u32 (rc_r_base m) && in_u32 (rc_r_one m)
  && in_u32 (rc_r_two m) && in_u32 (rc_r_three m) && in_u32 (rc_reactivity m).

Definition ty_xop (o : XOp) : bool :=
  match o with
  | EDrop l => forallb (fun e => in_i128 (snd e)) l
  | BInit _ _ _ _ _ l => forallb (fun e => in_i128 (snd e)) l
  | BDeposit _ _ n | BQueue _ _ n | BDequeue _ _ n | BWithdraw _ _ n
  | BDraw _ n _ | BDonate _ _ n | BClaim _ _ _ n => in_i128 n
  | TTransfer _ _ _ n | TTransferFrom _ _ _ _ n | TBurn _ _ n | TMint _ _ n => in_i128 n
  | TApprove _ _ _ n l => in_i128 n && in_u32 l
  | _ => true
  end.

Definition ty_pop (o : POp) : bool :=
  match o with
  | PInit _ _ rate mp _ _ => in_u32 rate && in_u32 mp
  | PUpdatePool rate mp => in_u32 rate && in_u32 mp
  | PQueueRes _ m => ty_cfg m
  | PSubmit _ _ _ qs => forallb (fun q => in_u32 (rq_type q) && in_i128 (rq_amt q)) qs
  | PSetStatus s => in_u32 s
  | PSetEmis ms => forallb (fun m => in_u32 (em_res_index m) && in_u32 (em_res_type m) && in_u64 (em_share m)) ms
  | PClaim _ ids _ => forallb in_u32 ids
  | PNewLiq _ pct => in_u64 pct
  | _ => true
  end.

Definition ty_orc (orc : Oracle) : bool :=
  forallb (fun e => in_u32 (snd e)) (map_to_list (o_dec orc))
  && forallb (fun e => in_i128 (fst (snd e)) && in_u64 (snd (snd e))) (map_to_list (o_price orc)).

(** signatures can only come from accounts and third-party contracts: the code of
    the four contracts authorizes for itself only the calls it makes itself *)
Definition ok_signer (a : Addr) : bool := 3 <? a.

(** ** Execution *)

Definition x_exec (c : Ctx) (x : Ext) (o : XOp) : res (Out * Ext) :=
  match o with
  | EInit b s t => ret_unit (em_initialize c x b s t)
  | EDistribute => ret_z (em_distribute c x)
  | EQueueSwap b t => ret_unit (em_queue_swap c x b t)
  | ECancelSwap => ret_unit (em_cancel_swap c x)
  | ESwap => ret_unit (em_swap_backstop c x)
  | EDrop l => ret_unit (em_drop c x l)
  | FInit b t => ret_unit (fa_initialize x b t)
  | BInit t e u b f l => ret_unit (b_initialize c x t e u b f l)
  | BDeposit f p n => ret_z (b_deposit c x f p n)
  | BQueue f p n => let? '(q, x) := b_queue c x f p n in Ok (OutQ4W q, x)
  | BDequeue f p n => ret_unit (b_dequeue c x f p n)
  | BWithdraw f p n => ret_z (b_withdraw c x f p n)
  | BDraw p n t => ret_unit (b_draw c x p n t)
  | BDonate f p n => ret_unit (b_donate c x f p n)
  | BUpdTkn => let? '((a, b), x) := b_update_tkn_val c x in Ok (OutZZ a b, x)
  | BDrop => ret_unit (b_drop c x)
  | BAddReward a r => ret_unit (b_add_reward c x a r)
  | BGulp => ret_z (b_gulp c x)
  | BGulpPool p => ret_z (b_gulp_pool c x p)
  | BClaim f ps t n => ret_z (b_claim c x f ps t n)
  | TTransfer k f t n => let? t' := transfer c (x_tok x) k f t n in Ok (OutUnit, x <| x_tok := t' |>)
  | TApprove k f s n l => let? t' := approve c (x_tok x) k f s n l in Ok (OutUnit, x <| x_tok := t' |>)
  | TTransferFrom k s f t n =>
      let? t' := transfer_from c (x_tok x) k s f t n in Ok (OutUnit, x <| x_tok := t' |>)
  | TBurn k f n => let? t' := burn c (x_tok x) k f n in Ok (OutUnit, x <| x_tok := t' |>)
  | TMint k t n => let? t' := mint (x_tok x) k t n in Ok (OutUnit, x <| x_tok := t' |>)
  end.

(** a storage change of the pool only *)
Definition on_pool (px : PX) (r : res PoolSt) : res (Out * PX) :=
  let? p := r in Ok (OutUnit, px <| px_p := p |>).

(** the pool contract at address [self]; every entry point but [initialize] reads
    an instance entry written by [initialize] and traps without it *)
Definition p_exec (c : Ctx) (self : Addr) (px : PX) (o : POp) : res (Out * PX) :=
  let p := px_p px in
  let x := px_x px in
  match o with
  | PInit a orc r m b t => on_pool px (p_initialize c p a orc r m b t)
  | _ =>
    assert! (ps_init p) else Trap in
    match o with
    | PInit _ _ _ _ _ _ => Err Trap
    | PSetAdmin a => on_pool px (p_set_admin c p a)
    | PUpdatePool r m => on_pool px (p_update_pool c p r m)
    | PQueueRes a m => on_pool px (p_queue_reserve c p a m)
    | PCancelRes a => on_pool px (p_cancel_reserve c p a)
    | PSetRes a => let? '(i, p) := p_set_reserve c p a in Ok (OutZ i, px <| px_p := p |>)
    | PSubmit f s t qs => let? '(pos, px) := p_submit c self px f s t qs in Ok (OutPos pos, px)
    | PBadDebt u => on_pool px (p_bad_debt c p u)
    | PUpdateStatus => let? '(s, p) := p_update_status self p x in Ok (OutZ s, px <| px_p := p |>)
    | PSetStatus s => on_pool px (p_set_status c self p x s)
    | PGulp => ret_z (p_gulp c self px)
    | PSetEmis ms => on_pool px (p_set_emis c p ms)
    | PClaim f ids t => ret_z (p_claim c self px f ids t)
    | PNewLiq u n => let? '(a, p) := create_liquidation c self p x u n in Ok (OutAuction a, px <| px_p := p |>)
    | PNewBadDebt => let? '(a, p) := create_bad_debt c self p x in Ok (OutAuction a, px <| px_p := p |>)
    | PNewInterest l => let? '(a, p) := create_interest c self p x l in Ok (OutAuction a, px <| px_p := p |>)
    end
  end.

Definition ctx (w : World) (signers : list Addr) : Ctx :=
  mkCtx (w_now w) (w_seq w) (fun a => mem_addr a signers).

Definition exec (w : World) (o : Op) : res (Out * World) :=
  match o with
  | OExt sg xo =>
      assert! (forallb ok_signer sg && ty_xop xo) else Trap in
      let? '(out, x) := x_exec (ctx w sg) (w_ext w) xo in
      Ok (out, w <| w_ext := x |>)
  | OPool sg a po =>
      assert! (forallb ok_signer sg && ty_pop po) else Trap in
      let? p := unwrap (w_pools w !! a) in
      let? '(out, px) := p_exec (ctx w sg) a (mkPX p (w_ext w)) po in
      Ok (out, w <| w_pools := <[a := px_p px]> (w_pools w) |> <| w_ext := px_x px |>)
  | ODeploy sg admin salt orc rate mp =>      (* pool_factory.rs 64-112 *)
      assert! (forallb ok_signer sg && in_u32 rate && in_u32 mp) else Trap in
      let c := ctx w sg in
      let x := w_ext w in
      let? _ := fa_check_deploy c x admin rate mp in
      let a := dep_addr admin salt in
      match w_pools w !! a with
      | Some _ => Err Trap
      | None =>
          let? p := p_initialize c fresh_pool admin orc rate mp (fa_backstop (x_fac x)) (fa_blnd (x_fac x)) in
          Ok (OutAddr a, w <| w_pools := <[a := p]> (w_pools w) |> <| w_ext := fa_set_deployed x a |>)
      end
  | OInstall a =>                             (* even negative addresses: not derived by the factory *)
      assert! ((a <? 0) && Z.even a) else Trap in
      match w_pools w !! a with
      | Some _ => Err Trap
      | None => Ok (OutUnit, w <| w_pools := <[a := fresh_pool]> (w_pools w) |>)
      end
  | OTick dt dseq =>
      assert! ((0 <=? dt) && (0 <=? dseq) && in_u64 (w_now w + dt) && in_u32 (w_seq w + dseq)) else Trap in
      Ok (OutUnit, w <| w_now := w_now w + dt |> <| w_seq := w_seq w + dseq |>)
  | OOracle orc =>                            (* values of the declared types i128, u64 and u32 *)
      assert! (ty_orc orc) else Trap in
      Ok (OutUnit, w <| w_ext := w_ext w <| x_orc := orc |> |>)
  | OLpSupply n =>
      assert! (in_i128 n) else Trap in Ok (OutUnit, w <| w_ext := w_ext w <| x_lp_supply := n |> |>)
  | OExpireAuction a t u =>
      let? p := unwrap (w_pools w !! a) in
      Ok (OutUnit, w <| w_pools := <[a := del_auction p t u]> (w_pools w) |>)
  | OExpireQueue a r =>
      let? p := unwrap (w_pools w !! a) in
      Ok (OutUnit, w <| w_pools := <[a := p <| ps_queue := delete r (ps_queue p) |>]> (w_pools w) |>)
  | OExpireDrop => Ok (OutUnit, w <| w_ext := w_ext w <| x_bs := x_bs (w_ext w) <| bs_drop := None |> |> |>)
  end.

(** ** Histories *)

(** a failed transaction changes nothing *)
Definition step (w : World) (o : Op) : World :=
  match exec w o with Ok (_, w') => w' | Err _ => w end.

Fixpoint run (w : World) (l : list Op) : World :=
  match l with [] => w | o :: l' => run (step w o) l' end.

(** the world before any of the contracts is initialized; token balances and
    allowances of third parties are arbitrary.  The contract addresses hold
    nothing and have granted nothing. *)
Definition empty_emitter : EmitterSt := mkEmitterSt false 0 0 0 ∅ None ∅.
Definition empty_backstop : BackstopSt := mkBackstopSt false 0 0 0 0 0 0 [] None None ∅ ∅ ∅ ∅ ∅ ∅.
Definition empty_factory : FactorySt := mkFactorySt false 0 0 ∅.
Definition genesis (now seq : Z) (t : Tok) (o : Oracle) (lp : Z) : World :=
  mkWorld now seq (mkExt t empty_emitter empty_backstop empty_factory o lp []) ∅.

(** well-formed initial tokens *)
Definition tok_ok (t : Tok) : Prop :=
  (forall tok a b, tk_bal t !! (tok, a) = Some b -> 0 <= b <= i128_max) /\
  (forall tok a s b l, tk_allow t !! (tok, a, s) = Some (b, l) -> 0 <= b <= i128_max /\ 3 < a).

Definition initial (w : World) : Prop :=
  exists now seq t o lp,
    w = genesis now seq t o lp /\ 0 <= now <= u64_max /\ 0 <= seq <= u32_max /\ tok_ok t /\ ty_orc o = true /\ in_i128 lp = true.

(** the worlds a history can reach *)
Definition reachable (w : World) : Prop := exists w0 l, initial w0 /\ w = run w0 l.
