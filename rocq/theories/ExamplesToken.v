(** * Concrete cases for C69 *)
From Verif Require Import Base Types Token Emitter Factory Backstop PoolReserve PoolUser PoolHealth
  PoolAuction PoolSubmit PoolEmis PoolAdmin World Facts XMove Spec PoolFrame PropsEmitter BackMoves PropsPool1 PropsPool2 PropsPool3 PropsToken Scenario ScenarioPool.

Definition no_allowance_b (w : World) (tok u : Addr) : bool :=
  forallb (fun e => negb ((e.1.1.1 =? tok) && (e.1.1.2 =? u))) (map_to_list (tk_allow (x_tok (w_ext w)))).
Lemma no_allowance_dec w tok u : no_allowance_b w tok u = true -> forall s, approved w tok u s <= 0.
Proof.
  intros H s. unfold approved. destruct (tk_allow (x_tok (w_ext w)) !! (tok, u, s)) as [v|] eqn:E; [|lia]. exfalso.
  unfold no_allowance_b in H. rewrite forallb_forall in H. specialize (H ((tok, u, s), v)). cbn [fst snd] in H. rewrite !Z.eqb_refl in H. apply elem_of_map_to_list in E. apply elem_of_list_In in E. by specialize (H E).
Qed.
(** bob signs nothing after his deposit: while alice is liquidated and carol fills the auction he keeps his BBB *)
Definition later : list Op := [OPool [] P1 (PNewLiq alice 60); submit_op carol [(2, AAA, 500000000000)]; OTick 500 100; submit_op carol [(6, alice, 50)]].
Example ex_C69_wallet :
  no_allowance_b (run sc0 ops_year) BBB bob = true /\ Forall (fun o => bob ∉ signers o) later /\ 0 < held (run sc0 ops_year) BBB bob /\
  all_ok (run sc0 ops_year) later = true.
Proof. split; [by vm_compute|]. split; [repeat constructor; vm_compute; set_solver|]. split; by vm_compute. Qed.
(** the condition on allowances is needed *)
Example ex_C69_allowance :
  let w := run sc0 (ops_year ++ [OExt [bob] (TApprove BBB bob carol 1000 9000000)]) in
  ret w (OExt [carol] (TTransferFrom BBB carol bob carol 1000)) = Some OutUnit /\
  held (step w (OExt [carol] (TTransferFrom BBB carol bob carol 1000))) BBB bob = held w BBB bob - 1000.
Proof. split; by vm_compute. Qed.
(** in the whole scenario BLND is created, but no AAA and BBB *)
Example ex_C69_supply :
  map (fun tok => in_existence (run sc0 ops_fill) tok - in_existence sc0 tok) [AAA; BBB] = [0; 0] /\ 0 < in_existence (run sc0 ops_fill) AAA /\
  0 < in_existence (run sc0 ops_fill) BLND - in_existence sc0 BLND.
Proof. split; [|split]; by vm_compute. Qed.
