(** * The lifetimes of temporary storage entries

    Auctions, queued reserve changes and the drop list live in the host's temporary storage: an entry is lost when its time to live runs out.
    World.v lets them expire at any moment; this file adds the lifetimes, so that properties of their length can be stated. *)
From Verif Require Import Base Types Token Emitter Factory Backstop PoolReserve PoolUser PoolHealth
  PoolAuction PoolSubmit PoolEmis PoolAdmin World PoolCfg.

(** pool/src/storage.rs 10-19, backstop/src/storage.rs (the same constants) *)
Definition ONE_DAY_LEDGERS : Z := 17280.
Definition LEDGER_THRESHOLD_SHARED : Z := ONE_DAY_LEDGERS * 45.
Definition LEDGER_BUMP_SHARED : Z := LEDGER_THRESHOLD_SHARED + ONE_DAY_LEDGERS.
Definition LEDGER_THRESHOLD_USER : Z := ONE_DAY_LEDGERS * 100.
Definition LEDGER_BUMP_USER : Z := LEDGER_THRESHOLD_USER + 20 * ONE_DAY_LEDGERS.

(** keys of temporary entries (pool/src/storage.rs 131-150: PoolDataKey::Auction, ResInit; backstop/src/storage.rs: DROP_LIST_KEY) *)
Definition Key : Type := Z * Z * Z * Z.
Definition k_auct (a : Addr) (t : Z) (u : Addr) : Key := (0, a, t, u).
Definition k_queue (a asset : Addr) : Key := (1, a, asset, 0).
Definition k_drop : Key := (2, 0, 0, 0).

(** the last ledger in which each temporary entry is guaranteed to exist, and the network's minimal lifetime of a new entry (an arbitrary
    setting of the network) *)
Record Ttl := mkTtl { tt_min : Z; tt_live : gmap Key Z }.

(** the host's extend_ttl(key, threshold, extend_to): an entry with less than [threshold] ledgers to live gets [extend_to] *)
Definition extend_ttl (seq threshold extend_to live : Z) : Z := if live - seq <? threshold then seq + extend_to else live.
(** a write of an entry followed by extend_ttl: a new entry starts with the minimal lifetime, an old one keeps its own *)
Definition written (seq threshold extend_to : Z) (k : Key) (t : Ttl) : Ttl :=
  mkTtl (tt_min t) (<[k := extend_ttl seq threshold extend_to (default (seq + tt_min t - 1) (tt_live t !! k))]> (tt_live t)).
Definition removed (k : Key) (t : Ttl) : Ttl := mkTtl (tt_min t) (delete k (tt_live t)).

(** storage.rs 399-407 (set_queued_reserve_set), 666-677 (set_auction), backstop/src/storage.rs 478-488 (set_drop_list) *)
Definition set_auction_ttl (seq : Z) (a : Addr) (ty : Z) (u : Addr) (t : Ttl) : Ttl :=
  written seq LEDGER_THRESHOLD_SHARED LEDGER_BUMP_SHARED (k_auct a ty u) t.
Definition set_queued_ttl (seq : Z) (a asset : Addr) (t : Ttl) : Ttl := written seq LEDGER_THRESHOLD_USER LEDGER_BUMP_USER (k_queue a asset) t.
Definition set_drop_ttl (seq : Z) (t : Ttl) : Ttl := written seq LEDGER_THRESHOLD_USER LEDGER_BUMP_USER k_drop t.

(** the request of a submit: a fill writes back what is left of the auction or removes it (auctions/auction.rs 156-174), a deletion removes the
    submitter's own (auction.rs 125-131). Simplified: whether something is left is read off the state after the whole submit; several writes
    in one ledger are the same as one *)
Definition request_ttl (seq : Z) (a from : Addr) (after : PoolSt) (t : Ttl) (q : Request) : Ttl :=
  if (6 <=? rq_type q) && (rq_type q <=? 8) then
    if decide (is_Some (ps_auct after !! (rq_type q - 6, rq_addr q))) then set_auction_ttl seq a (rq_type q - 6) (rq_addr q) t
    else removed (k_auct a (rq_type q - 6) (rq_addr q)) t
  else if rq_type q =? 9 then removed (k_auct a 0 from) t
  else t.

(** a transaction *)
Definition tx_ttl (w : World) (t : Ttl) (o : Op) : Ttl :=
  match exec w o with
  | Err _ => t
  | Ok (_, w') =>
      match o with
      | OPool _ a (PNewLiq u _) => set_auction_ttl (w_seq w) a 0 u t                                    (* auction.rs 99-115 *)
      | OPool _ a PNewBadDebt => set_auction_ttl (w_seq w) a 1 (ps_backstop (pool w a)) t               (* auction.rs 48-66 *)
      | OPool _ a (PNewInterest _) => set_auction_ttl (w_seq w) a 2 (ps_backstop (pool w a)) t        (* auction.rs 75-88 *)
      | OPool _ a (PSubmit from _ _ qs) => fold_left (request_ttl (w_seq w) a from (pool w' a)) qs t
      | OPool _ a (PQueueRes asset _) => set_queued_ttl (w_seq w) a asset t                             (* pool/config.rs 80-87 *)
      | OPool _ a (PCancelRes asset) | OPool _ a (PSetRes asset) => removed (k_queue a asset) t         (* config.rs 92, 104 *)
      | OExt _ (BInit _ _ _ _ _ _) => set_drop_ttl (w_seq w) t                                          (* backstop/src/contract.rs 200 *)
      | OExpireAuction a ty u => removed (k_auct a ty u) t
      | OExpireQueue a asset => removed (k_queue a asset) t
      | OExpireDrop => removed k_drop t
      | _ => t
      end
  end.

(** histories with lifetimes: transactions, and extensions of an entry's lifetime, which anybody can pay for *)
Inductive TOp := TTx (o : Op) | TExtend (k : Key) (n : Z).
Definition t_step (s : World * Ttl) (x : TOp) : World * Ttl :=
  match x with
  | TTx o => (step s.1 o, tx_ttl s.1 s.2 o)
  | TExtend k n =>
      match tt_live s.2 !! k with
      | Some l => (s.1, mkTtl (tt_min s.2) (<[k := Z.max l (w_seq s.1 + n)]> (tt_live s.2)))
      | None => s
      end
  end.
Definition t_run (s : World * Ttl) (l : list TOp) : World * Ttl := fold_left t_step l s.

(** the host removes a temporary entry only after the last ledger of its lifetime *)
Definition expired_at (s : World * Ttl) (k : Key) : Prop := forall l, tt_live s.2 !! k = Some l -> l < w_seq s.1.
Definition host_allows (s : World * Ttl) (x : TOp) : Prop :=
  match x with
  | TTx (OExpireAuction a ty u) => expired_at s (k_auct a ty u)
  | TTx (OExpireQueue a asset) => expired_at s (k_queue a asset)
  | TTx OExpireDrop => expired_at s k_drop
  | _ => True
  end.
Fixpoint host_ok (s : World * Ttl) (l : list TOp) : Prop :=
  match l with [] => True | x :: l => host_allows s x /\ host_ok (t_step s x) l end.
(** nothing is stored at the start *)
Definition t_initial (s : World * Ttl) : Prop := initial s.1 /\ tt_live s.2 = ∅.
Definition t_reachable (s : World * Ttl) : Prop := exists s0 l, t_initial s0 /\ host_ok s0 l /\ s = t_run s0 l.
