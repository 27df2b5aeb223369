(** * Concrete cases for C64 *)
From Verif Require Import Base Types Token Emitter Factory Backstop PoolReserve PoolUser PoolHealth
  PoolAuction PoolSubmit PoolEmis PoolAdmin World Facts XMove Spec PoolFrame PoolCfg PropsBackstop PropsPool1 PropsPool21 Scenario ScenarioPool.

(** checking [tagree] *)
Definition covered (D : list Addr) (t1 t2 : Tok) : bool :=
  forallb (fun e : (Addr * Addr) * Z => negb (mem_addr e.1.2 D) || (balance t2 e.1.1 e.1.2 =? e.2)) (map_to_list (tk_bal t1)).
Lemma covered_ok D t1 t2 k a v : covered D t1 t2 = true -> a ∈ D -> tk_bal t1 !! (k, a) = Some v -> balance t2 k a = v.
Proof.
  unfold covered. rewrite forallb_forall. intros H Ha Hl. apply elem_of_map_to_list in Hl. specialize (H (k, a, v) ltac:(by apply elem_of_list_In)).
  simpl in H. apply orb_true_iff in H as [H|H]; [|by apply Z.eqb_eq]. apply negb_true_iff in H.
  assert (mem_addr a D = true) as Hm; [|congruence]. by apply BackMoves.mem_addr_elem.
Qed.
Lemma agree_dec D t1 t2 : covered D t1 t2 = true -> covered D t2 t1 = true -> tagree D t1 t2.
Proof.
  intros H1 H2 k a Ha. destruct (tk_bal t1 !! (k, a)) as [v|] eqn:E1.
  - rewrite (covered_ok _ _ _ _ _ _ H1 Ha E1). unfold balance. by rewrite E1.
  - destruct (tk_bal t2 !! (k, a)) as [v|] eqn:E2.
    + rewrite (covered_ok _ _ _ _ _ _ H2 Ha E2). unfold balance. by rewrite E2.
    + unfold balance. by rewrite E1, E2.
Qed.

Lemma agree_worlds D w w' : covered D (x_tok (w_ext w)) (x_tok (w_ext w')) = true -> covered D (x_tok (w_ext w')) (x_tok (w_ext w)) = true ->
  forall k a, a ∈ D -> tokens w' k a = tokens w k a.
Proof. intros H1 H2 k a Ha. by apply (agree_dec D). Qed.
Lemma ret_ne w o : ret w o <> None -> succeeds w o.
Proof. unfold succeeds, ret. destruct (exec w o) as [[out w']|]; [eauto|done]. Qed.

(** carol uses the second pool, which gets a reserve and is switched on, while a loan is
    open in the first *)
Definition ops_second : list Op :=
  [OPool [admin] P2 (PQueueRes AAA cfgA); OPool [] P2 (PSetRes AAA); OPool [admin] P2 (PSetStatus 2);
   OPool [carol] P2 (PSubmit carol carol carol [mkReq 2 AAA 700000000; mkReq 3 AAA 200000000])].
(** bob's withdrawal in the first pool *)
Definition po_bob : POp := PSubmit bob bob bob [mkReq 1 BBB 30000000000].
Example ex_C64_covered : covered (P1 :: parties po_bob) (x_tok (w_ext (run sc0 ops_loan))) (x_tok (w_ext (run (run sc0 ops_loan) ops_second))) = true /\
  covered (P1 :: parties po_bob) (x_tok (w_ext (run (run sc0 ops_loan) ops_second))) (x_tok (w_ext (run sc0 ops_loan))) = true.
Proof. split; by vm_compute. Qed.
Example ex_C64_runs : all_ok sc0 (ops_loan ++ ops_second) = true /\ of_others P1 ops_second /\
  tokens (run (run sc0 ops_loan) ops_second) AAA P2 = 500000000 /\ self_contained po_bob = true.
Proof.
  split; [by vm_compute|]. split. { repeat constructor; eexists _, _, _; (split; [reflexivity|done]). }
  split; by vm_compute.
Qed.
Example ex_C64 :
  (forall k a, a ∈ P1 :: parties po_bob -> tokens (run (run sc0 ops_loan) ops_second) k a = tokens (run sc0 ops_loan) k a) /\
  succeeds (run sc0 ops_loan) (OPool [bob] P1 po_bob) /\ succeeds (run (run sc0 ops_loan) ops_second) (OPool [bob] P1 po_bob).
Proof.
  split; [exact (agree_worlds _ _ _ (proj1 ex_C64_covered) (proj2 ex_C64_covered))|]. split; apply ret_ne; by vm_compute.
Qed.
(** the restriction is needed: tokens the payer spends elsewhere are gone *)
Example ex_C64_parties :
  let spend := [OPool [carol] P2 (PSubmit carol carol carol [mkReq 2 AAA (balance (x_tok (w_ext (run sc0 (ops_loan ++ ops_second)))) AAA carol)])] in
  let op := submit_op carol [(2, AAA, 1000000000)] in
  all_ok sc0 (ops_loan ++ ops_second ++ [op]) = true /\ all_ok sc0 (ops_loan ++ ops_second ++ spend) = true /\
  ret (run sc0 (ops_loan ++ ops_second ++ spend)) op = None.
Proof. by vm_compute. Qed.
