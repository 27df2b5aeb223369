(** * Concrete cases for C82, C83 and C84 *)
From Verif Require Import Base Types Token Emitter Factory Backstop PoolReserve PoolUser PoolHealth
  PoolAuction PoolSubmit PoolEmis PoolAdmin World Facts Spec PoolCfg Events PropsPool1 PropsPool3 PropsPool4 PropsBackstop PropsEvents1 PropsEvents2 PropsEvents3 Scenario ScenarioPool.

(** the events that move positions or deposits *)
Definition moving (se : Z * Event) : bool :=
  match snd se with
  | VSupply _ _ _ _ _ | VWithdraw _ _ _ _ _ | VSupplyColl _ _ _ _ _ | VWithdrawColl _ _ _ _ _ | VBorrow _ _ _ _ _ | VRepay _ _ _ _ _ | VFill _ _ _ _ _
  | VBadDebt _ _ _ _ | VDelete _ _ | VBDraw _ _ _ | VBDonate _ _ _ | VBDeposit _ _ _ _ | VBQueue _ _ _ _ | VBDequeue _ _ _ | VBWithdraw _ _ _ _ => true
  | _ => false end.
Definition story (l : list Op) : list (Z * Event) := List.filter moving (event_log sc0 l).
(** a crash, a liquidation of everything for a tenth of the debt, bad debt for the backstop, and a partial fill of its auction, which draws from the deposits *)
Example ex_C82_story : story (ops_bdwait ++ [submit_op carol [(7, bs_addr, 30)]]) =
  [(1000, VBDeposit P1 alice 500000000000 500000000000); (1000, VBDeposit P2 bob 250000000000 250000000000);
   (18280, VSupplyColl P1 AAA alice 100000000000 100000000000); (18280, VSupply P1 BBB bob 100000000000 100000000000);
   (18280, VBorrow P1 BBB alice 50000000000 50000000000); (5018280, VSupplyColl P1 AAA carol 900000000000 900000000000);
   (5018661, VFill P1 alice 0 carol 100); (5018661, VBadDebt P1 alice BBB 45000000000);
   (5018761, VBDraw P1 carol 25378417); (5018761, VFill P1 bs_addr 1 carol 30)].
Proof. by vm_compute. Qed.
(** the deposits as an indexer sees them, starting from nothing *)
Example ex_C82_replay : let l := ops_leave ++ [submit_op carol [(7, bs_addr, 30)]] in
  let ub := fold_left (ix_user P1 alice) (map snd (event_log sc0 l)) (mkUserBal 0 []) in
  let pb := fold_left (ix_pool P1) (map snd (event_log sc0 l)) (mkPoolBal 0 0 0) in
  ub_shares ub = 1000000000 /\ ub_q4w ub = [] /\ pb_shares pb = 1000000000 /\ 0 < pb_tokens pb < 1000000000 /\ pb_q4w pb = 0 /\
  get_pb (w_ext (run sc0 l)) P1 = pb.
Proof. by vm_compute. Qed.
(** the book after the partial liquidation: both accounts and the rest of the auction *)
Definition book_of (l : list Op) : Book := fold_left (book P1 bs_addr) (event_log sc0 l) empty_book.
Definition lines (acc : Account) : list (Z * Z * Z) := map (fun r => (supplied acc r, collateral acc r, owed acc r)) [AAA; BBB].
Definition parts (o : option Auction) : option (list (Z * Z) * list (Z * Z) * Z) :=
  match o with Some au => Some (map_to_list (au_bid au), map_to_list (au_lot au), au_block au) | None => None end.
Example ex_C83_liquidation : let b := book_of ops_fill in
  lines (bk_acc b alice) = [(0, 87726239875, 0); (0, 0, 35000000000)] /\ lines (bk_acc b carol) = [(0, 512273760125, 0); (0, 0, 15000000000)] /\
  parts (bk_auct b 0 alice) = Some ([(BBB, 15000000000)], [(AAA, 24795475000)], 5018281) /\ auction_of (run sc0 ops_fill) 0 alice = parts (bk_auct b 0 alice).
Proof. by vm_compute. Qed.
(** bad debt: the backstop's account *)
Example ex_C83_bad_debt : let b := book_of ops_bdwait in let b' := book_of (ops_bdwait ++ [submit_op carol [(7, bs_addr, 30)]]) in
  lines (bk_acc b alice) = [(0, 0, 0); (0, 0, 0)] /\ lines (bk_acc b bs_addr) = [(0, 0, 0); (0, 0, 45000000000)] /\
  lines (bk_acc b' bs_addr) = [(0, 0, 0); (0, 0, 31500000000)].
Proof. by vm_compute. Qed.
(** the book keeps auctions whose storage entry has expired: nothing is published then *)
Example ex_C83_expired : let l := ops_liq ++ [OTick 4000000 800000; OExpireAuction P1 0 alice] in
  auction_of (run sc0 l) 0 alice = None /\ parts (bk_auct (book_of l) 0 alice) = Some ([(BBB, 30000000000)], [(AAA, 49590950000)], 5018281).
Proof. by vm_compute. Qed.

Lemma parts_inj o o' : parts o = parts o' -> o = o'.
Proof.
  destruct o as [[b l n]|], o' as [[b' l' n']|]; simpl; intros H; try done. injection H as H1 H2 ->.
  assert (b = b') as -> by (apply map_to_list_inj; by rewrite H1). assert (l = l') as -> by (apply map_to_list_inj; by rewrite H2). done.
Qed.
Definition half_left (w : World) (o : Op) : bool :=
  match parts (auction w P1 0 alice), parts (auction (step w o) P1 0 alice) with
  | Some a, Some b => bool_decide (Some b = parts (match auction w P1 0 alice with Some au => remainder au 50 | None => None end)) | _, _ => false end.
Lemma half_left_spec w o : half_left w o = true -> exists au au', auction w P1 0 alice = Some au /\ auction (step w o) P1 0 alice = Some au' /\ remainder au 50 = Some au'.
Proof.
  unfold half_left. destruct (auction w P1 0 alice) as [au|]; [|done]. destruct (auction (step w o) P1 0 alice) as [au'|]; [|done]. intros H.
  exists au, au'. split; [done|]. split; [done|]. apply parts_inj. symmetry. exact (bool_decide_eq_true_1 _ H).
Qed.
(** Finding: the event of a fill carries the amount of the request, of which the pool uses only the low 64 bits. *)
Theorem C83_fill_events_overstate : exists w o amt, reachable w /\ 100 < amt /\ events w o = [VFill P1 alice 0 carol amt] /\
  exists au au', auction w P1 0 alice = Some au /\ auction (step w o) P1 0 alice = Some au' /\ remainder au 50 = Some au'.
Proof.
  exists (run sc0 ops_wait), (submit_op carol [(6, alice, 2 ^ 64 + 50)]), (2 ^ 64 + 50).
  split; [apply sc_reachable|]. split; [lia|]. split; [by vm_compute|].
  apply half_left_spec. by vm_compute.
Qed.

(** ** C84 *)
(** the tokens of the pool before, according to the events, and after *)
Definition tills (l : list Op) : list (Z * Z * Z) := map (fun t => (held sc0 t P1, cash P1 bs_addr t empty_book (event_log sc0 l), held (run sc0 l) t P1)) [AAA; BBB].
(** alice repays more than she owes and takes out collateral *)
Definition ops_refund : list Op := ops_loan ++ [OTick 3000000 500000; submit_op alice [(5, BBB, 60000000000); (3, AAA, 70000000000)]].
Example ex_C84_refund : tills ops_refund = [(0, 30000000000, 30000000000); (0, 100206114000, 100206114000)]. Proof. by vm_compute. Qed.
(** carol fills 60% of an interest auction: its lot is known from the book *)
Example ex_C84_interest : tills ops_intfill = [(0, 100000000000, 100000000000); (0, 49869999800, 49869999800)]. Proof. by vm_compute. Qed.
(** a gift *)
Example ex_C84_gift : tills (ops_intfill ++ [OExt [] (TMint AAA P1 777)]) = [(0, 100000000000, 100000000777); (0, 49869999800, 49869999800)]. Proof. by vm_compute. Qed.
(** the hypothesis of the exact part *)
Definition giftb (w : World) (a : Addr) (o : Op) : bool :=
  match o with
  | OExt _ (TMint _ to _) | OExt _ (TTransfer _ _ to _) | OExt _ (TTransferFrom _ _ _ to _) | OExt _ (BDraw _ _ to) => to =? a
  | OExt _ EDistribute | OExt _ ESwap => em_backstop (x_em (w_ext w)) =? a
  | OExt _ (EDrop l) => bool_decide (a ∈ l.*1)
  | OExt _ BDrop => match bs_drop (x_bs (w_ext w)) with Some l => bool_decide (a ∈ l.*1) | None => false end
  | OExt _ (BClaim _ _ _ _) => bs_token (x_bs (w_ext w)) =? a
  | OPool _ p (PSubmit _ _ to _) => negb (p =? a) && (to =? a)
  | OPool _ _ (PClaim _ _ to) => to =? a
  | _ => false
  end.
Lemma giftb_spec w a o : giftb w a o = false -> ~ gift w a o.
Proof.
  intros H G. destruct o as [sg xo|sg p po| | | | | | | |]; try done; [destruct xo|destruct po]; cbn [gift giftb] in *; try done; try (apply Z.eqb_neq in H; done).
  - by apply bool_decide_eq_false in H.
  - destruct G as (l & Hl & Hin). rewrite Hl in H. by apply bool_decide_eq_false in H.
  - destruct G as [G ->]. rewrite Z.eqb_refl, andb_true_r in H. apply negb_false_iff, Z.eqb_eq in H. done.
Qed.
Fixpoint gift_free (w : World) (a : Addr) (l : list Op) : bool := match l with [] => true | o :: l => negb (giftb w a o) && gift_free (step w o) a l end.
Lemma gift_free_spec a l : forall w, gift_free w a l = true -> forall l1 o l2, l = l1 ++ o :: l2 -> ~ gift (run w l1) a o.
Proof.
  induction l as [|o l IH]; intros w H l1 o' l2 E; [by destruct l1|]. cbn [gift_free] in H. apply andb_prop in H as [H1 H2]. apply negb_true_iff in H1.
  destruct l1 as [|o1 l1]; injection E as -> ->; [by apply giftb_spec|]. change (run w (o1 :: l1)) with (run (step w o1) l1). by eapply IH.
Qed.
Example ex_C84_no_gifts : gift_free sc0 P1 ops_refund = true /\ gift_free sc0 P1 ops_intfill = true /\ ps_init (pool (run sc0 ops_intfill) P1) = true.
Proof. by vm_compute. Qed.
