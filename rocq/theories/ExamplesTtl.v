(** * Concrete cases for C86 *)
From Verif Require Import Base Types Token Emitter Factory Backstop PoolReserve PoolUser PoolHealth
  PoolAuction PoolSubmit PoolEmis PoolAdmin World Spec Scenario ScenarioPool PropsAdmin PropsPool3 PropsPool4 ExamplesPool Ttl PropsTtl PropsTtl2.

(** the scenario with lifetimes; new entries live at least a day *)
Definition ts0 : World * Ttl := (sc0, mkTtl 17280 ∅).
Definition txs (l : list Op) : list TOp := map TTx l.
Lemma ts0_initial : t_initial ts0. Proof. split; [apply sc0_initial|done]. Qed.
Definition no_expiry (o : Op) : bool := match o with OExpireAuction _ _ _ | OExpireQueue _ _ | OExpireDrop => false | _ => true end.
Lemma txs_ok l : forall s, forallb no_expiry l = true -> host_ok s (txs l).
Proof. induction l as [|o l IH]; intros s H; [done|]. apply andb_prop in H as [Ho H]. split; [by destruct o|by apply IH]. Qed.
Lemma txs_world l : forall s, (t_run s (txs l)).1 = run s.1 l.
Proof. induction l as [|o l IH]; intros s; [done|]. change (t_run s (txs (o :: l))) with (t_run (t_step s (TTx o)) (txs l)). by rewrite IH. Qed.
Lemma txs_reach l : forallb no_expiry l = true -> t_reachable (t_run ts0 (txs l)).
Proof. intros H. exists ts0, (txs l). split; [apply ts0_initial|]. split; [by apply txs_ok|done]. Qed.

(** the interest auction of C26, 400 ledgers old, stays through 44 days *)
Definition ops_old : list Op := ops_int ++ [OTick 1500 300].
Definition wait44 : list TOp := [TTx (OTick 3801600 760320); TTx (OPool [] P1 PUpdateStatus)].
Example ex_C86_blocked : let s := t_run ts0 (txs ops_old) in
  t_reachable s /\ host_ok s wait44 /\ auction s.1 P1 2 bs_addr = Some ex_au /\ au_block ex_au + 400 <= w_seq s.1 /\
  w_seq (t_run s wait44).1 < au_block ex_au + DAYS45.
Proof.
  cbv zeta. split; [by apply txs_reach|]. split; [done|]. rewrite txs_world. split; [by vm_compute|]. split; [by vm_compute|]. by vm_compute.
Qed.
(** its entry was written when it was created, and lives 46 days from then *)
Example ex_C86_lifetime : tt_live (t_run ts0 (txs ops_old)).2 !! k_auct P1 2 bs_addr = Some (au_block ex_au - 1 + 794880).
Proof. by vm_compute. Qed.
(** 45 days of ledgers after its start it cannot have expired; 46 days after its start it has, and is gone *)
Definition wait (n : Z) : list Op := ops_old ++ [OTick (n * 5) n].
Example ex_C86_not_yet : tt_live (t_run ts0 (txs (wait 777599))).2 !! k_auct P1 2 bs_addr = Some (au_block ex_au - 1 + 794880) /\
  w_seq (t_run ts0 (txs (wait 777599))).1 = au_block ex_au + 777999.
Proof. split; by vm_compute. Qed.
Example ex_C86_gone : let s := t_run ts0 (txs (wait 795280)) in
  host_allows s (TTx (OExpireAuction P1 2 bs_addr)) /\ auction (t_step s (TTx (OExpireAuction P1 2 bs_addr))).1 P1 2 bs_addr = None.
Proof.
  cbv zeta. split; [|by vm_compute].
  apply (C86_interest_unblocked ts0 _ P1 bs_addr ex_au); [apply ts0_initial|by vm_compute|by apply txs_ok| |by vm_compute|by vm_compute].
  intros k n H. apply elem_of_list_fmap in H as (o & H & _). discriminate.
Qed.
(** then a new interest auction can be created (with fresh prices) *)
Example ex_C86_again : let w := run sc0 (wait 795280 ++ [OExpireAuction P1 2 bs_addr; OOracle (orc0 (w_now (run sc0 (wait 795280))) 70000000 70000000)]) in
  is_ok (exec w (OPool [] P1 (PNewInterest [BBB]))) = true.
Proof. by vm_compute. Qed.
(** somebody who pays keeps it for another 100 days *)
Example ex_C86_paid : let s := t_run ts0 (txs (wait 700000) ++ [TExtend (k_auct P1 2 bs_addr) 1728000; TTx (OTick 8640000 1728000)]) in
  auction s.1 P1 2 bs_addr = Some ex_au /\ ~ host_allows s (TTx (OExpireAuction P1 2 bs_addr)).
Proof.
  cbv zeta. split; [by vm_compute|]. intros H. specialize (H (w_seq sc0 + 5017281 + 400 + 700000 + 1728000) ltac:(by vm_compute)). revert H. by vm_compute.
Qed.

(** a queued reserve change; the first queued one of the scenario, 99 days later *)
Definition q_before : list Op := ops_loan.
Definition q_op : Op := OPool [admin] P1 (PQueueRes BBB cfgA).
Definition q_wait : list TOp := [TTx (OTick 8553600 1710720); TTx (OPool [admin] P1 (PQueueRes BBB cfgA)); TTx (OPool [admin] P1 (PQueueRes AAA cfgA))].
Example ex_C86_queue : let s := t_run ts0 (txs q_before) in let s1 := t_step s (TTx q_op) in
  reachable s.1 /\ is_ok (exec s.1 q_op) = true /\ host_ok s1 q_wait /\ w_seq (t_run s1 q_wait).1 <= w_seq s.1 + DAYS100 /\
  queued (t_run s1 q_wait).1 P1 BBB = Some (mkQueuedRes cfgA (w_now (run sc0 q_before) + 604800)) /\
  is_ok (exec (step (run sc0 (q_before ++ [q_op])) (OTick 8553600 1710720)) q_op) = false.
Proof.
  cbv zeta. rewrite txs_world. split; [apply sc_reachable|]. split; [by vm_compute|]. split; [done|]. split; [by vm_compute|]. split; by vm_compute.
Qed.
(** the drop list of the backstop of the scenario, 99 days later *)
Definition d_op : Op := OExt [] (BInit LP em_addr USDC BLND fac_addr [(alice, 5)]).
Definition d_wait : list TOp := [TTx (OTick 8553600 1710720); TTx d_op].
Example ex_C86_drop : let s := t_run ts0 (txs [OExt [] (EInit BLND bs_addr LP)]) in let s1 := t_step s (TTx d_op) in
  reachable s.1 /\ is_ok (exec s.1 d_op) = true /\ host_ok s1 d_wait /\ w_seq (t_run s1 d_wait).1 <= w_seq s.1 + DAYS100 /\
  bs_drop (x_bs (w_ext (t_run s1 d_wait).1)) = Some [(alice, 5)].
Proof.
  cbv zeta. rewrite txs_world. split; [apply (sc_reachable [OExt [] (EInit BLND bs_addr LP)])|]. split; [by vm_compute|]. split; [done|]. split; by vm_compute.
Qed.
