(** * Concrete cases for C80 *)
From Verif Require Import Base Types Token Emitter Factory Backstop PoolReserve PoolUser PoolHealth
  PoolAuction PoolSubmit PoolEmis PoolAdmin World Facts XMove Spec PoolCfg PoolHF PropsPool1 PropsPool2 PropsPool3 PropsPool4 PropsPool36 Scenario ScenarioPool.

(** bob has lent BBB to alice; a year later alice is liquidated by carol: bob's deposit stays and is worth more *)
Definition year_of_others : list Op :=
  [OTick 31536000 5000000; OOracle (orc0 (t0 + 86400 + 31536000) 10000000 13000000); OPool [] P1 (PNewLiq alice 60); submit_op carol [(2, AAA, 500000000000)]; OTick 500 100;
   submit_op carol [(6, alice, 50)]].
Example ex_C80_savings : let w := run sc0 ops_loan in let w' := run w year_of_others in
  all_ok w year_of_others = true /\ ps_init (pool w P1) = true /\ ps_backstop (pool w P1) = bs_addr /\ forallb (fun o => forallb (fun s => negb (s =? bob)) (signers o)) year_of_others = true /\
  auction w P1 0 bob = None /\ map_to_list (po_liab (positions w P1 bob)) = [] /\ map_to_list (po_sup (positions w P1 bob)) = [(1, 100000000000)] /\
  map_to_list (po_coll (positions w' P1 alice)) = [(0, 87726239875)] /\ positions w' P1 bob = positions w P1 bob /\
  savings (positions w P1 bob) 1 (default 0 (rd_b_rate <$> reserve w P1 BBB)) = 100000000000 /\
  savings (positions w' P1 bob) 1 (default 0 (rd_b_rate <$> reserve w' P1 BBB)) = 101733363500.
Proof. by vm_compute. Qed.
(** alice's debt is covered before that year and not after it *)
Definition coveredb (w : World) (a u : Addr) : bool :=
  (0 <=? eff_liab (w_now w) (pool w a) (w_ext w) (positions w a u)) && (eff_liab (w_now w) (pool w a) (w_ext w) (positions w a u) <? eff_coll (w_now w) (pool w a) (w_ext w) (positions w a u)).
Lemma coveredb_ok w a u : coveredb w a u = true <-> covered_debt w a u.
Proof. unfold coveredb, covered_debt. rewrite andb_true_iff, Z.leb_le, Z.ltb_lt. done. Qed.
Example ex_C80_covered : coveredb (run sc0 ops_loan) P1 alice = true /\ coveredb (run sc0 ops_year) P1 alice = false /\
  map_to_list (po_liab (positions (run sc0 ops_loan) P1 alice)) = [(1, 50000000000)].
Proof. by vm_compute. Qed.
(** the finding: alice repays all her debt while an auction is open; 420 ledgers later a stranger without any position takes half of her collateral *)
Definition ops_stale : list Op := ops_liq ++ [OExt [] (TMint BBB alice 100000000000); submit_op alice [(5, BBB, 100000000000)]; OTick 2100 420].
Example ex_C80_stale : let w := run sc0 ops_stale in let w' := step w (submit_op dave [(6, alice, 100)]) in
  all_ok sc0 (ops_stale ++ [submit_op dave [(6, alice, 100)]]) = true /\
  map_to_list (po_liab (positions w P1 alice)) = [] /\ map_to_list (po_coll (positions w P1 alice)) = [(0, 100000000000)] /\ (match auction w P1 0 alice with Some au => au_block au + 400 <=? w_seq w | None => false end) = true /\
  map_to_list (po_coll (positions w' P1 alice)) = [(0, 50409050000)] /\ map_to_list (po_coll (positions w' P1 dave)) = [(0, 49590950000)] /\ map_to_list (po_liab (positions w' P1 dave)) = [].
Proof. by vm_compute. Qed.
