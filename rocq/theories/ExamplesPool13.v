(** * Concrete cases for C72 *)
From Verif Require Import Base Types Token Emitter Factory Backstop PoolReserve PoolUser PoolHealth
  PoolAuction PoolSubmit PoolEmis PoolAdmin World Facts XMove Spec PropsPool1 PropsPool2 PropsPool3 PropsPool30 Scenario ScenarioPool ExamplesPool6.

(** in one ledger, long after the reserves were last used: a borrow, a liquidation, a flood of supply, and a failing call *)
Definition ops_busy : list Op :=
  [submit_op carol [(2, AAA, 500000000000)]; submit_op carol [(4, BBB, 30000000000)]; OPool [] P1 (PNewLiq alice 60);
   submit_op bob [(1, BBB, 900000000000000)]; OOracle (orc0 (t0 + 86400 + 31536000) 20000000 13000000)].
Example ex_C72_rates_reachable : reachable (run sc0 ops_year) /\ all_ok sc0 (ops_year ++ [submit_op carol [(2, AAA, 500000000000)]; submit_op carol [(4, BBB, 30000000000)]]) = true /\
  Forall (same_ledger P1) ops_busy.
Proof. split; [apply sc_reachable|]. split; [by vm_compute|]. unfold ops_busy, submit_op. repeat constructor; congruence. Qed.
Example ex_C72_rates :
  b_rate_now (run sc0 ops_year) P1 BBB = b_rate_now (run sc0 (ops_year ++ ops_busy)) P1 BBB /\ 1000000000 < b_rate_now (run sc0 ops_year) P1 BBB /\
  d_rate_now (run sc0 ops_year) P1 BBB = d_rate_now (run sc0 (ops_year ++ ops_busy)) P1 BBB /\ 1000000000 < d_rate_now (run sc0 ops_year) P1 BBB /\
  reserve (run sc0 ops_year) P1 BBB <> reserve (run sc0 (ops_year ++ ops_busy)) P1 BBB.
Proof. by vm_compute. Qed.
(** the restriction is needed: a change of the take rate applies to the time that has passed since the reserve was last used *)
Example ex_C72_take_rate :
  all_ok sc0 (ops_year ++ [OPool [admin] P1 (PUpdatePool 5000000 4)]) = true /\
  b_rate_now (run sc0 (ops_year ++ [OPool [admin] P1 (PUpdatePool 5000000 4)])) P1 BBB < b_rate_now (run sc0 ops_year) P1 BBB.
Proof. split; by vm_compute. Qed.

(** carol and bob in either order: both reserves are touched by both *)
Definition op_c : Op := submit_op carol [(2, AAA, 500000000000); (4, BBB, 30000000000)].
Definition op_b : Op := submit_op bob [(1, BBB, 7000000000); (2, AAA, 3000000000); (4, BBB, 100000000)].
Example ex_C72_order : all_ok sc0 (ops_year ++ [op_c; op_b]) = true /\ all_ok sc0 (ops_year ++ [op_b; op_c]) = true /\
  pos_of (run sc0 (ops_year ++ [op_c; op_b])) carol = pos_of (run sc0 (ops_year ++ [op_b; op_c])) carol /\
  res_of (run sc0 (ops_year ++ [op_c; op_b])) BBB = res_of (run sc0 (ops_year ++ [op_b; op_c])) BBB.
Proof. by vm_compute. Qed.
(** being accepted is different: the second to withdraw may find the reserve empty *)
Example ex_C72_acceptance :
  let w := run sc0 ops_loan in
  let b := submit_op bob [(1, BBB, 40000000000)] in let c := submit_op carol [(2, AAA, 500000000000); (4, BBB, 40000000000)] in
  ret w b <> None /\ ret w c <> None /\ ret (step w b) c = None /\ ret (step w c) b = None.
Proof. by vm_compute. Qed.
(** emissions are left out of the comparison because they do depend on the order: whoever is the first to borrow a reserve whose borrowers earn
    emissions gets the emissions of the whole time nobody had borrowed *)
Definition emis_of (l : list Op) (u : Addr) : option Z :=
  match exec (run sc0 l) (OPool [u] P1 (PClaim u [2; 1] u)) with Ok (OutZ n, _) => Some n | _ => None end.
Definition ops_idle : list Op := ops_pool ++ [submit_op bob [(0, BBB, 100000000000)]; OTick 86400 17280; OOracle (orc0 (t0 + 86400 + 86400) 10000000 10000000)].
Definition first_a : Op := submit_op alice [(2, AAA, 100000000000); (4, BBB, 1000000000)].
Definition first_c : Op := submit_op carol [(2, AAA, 100000000000); (4, BBB, 1000000000)].
Example ex_C72_emissions : all_ok sc0 (ops_idle ++ [first_a; first_c]) = true /\ all_ok sc0 (ops_idle ++ [first_c; first_a]) = true /\
  emis_of (ops_idle ++ [first_a; first_c]) alice = Some 24685599200 /\ emis_of (ops_idle ++ [first_a; first_c]) carol = Some 0 /\
  emis_of (ops_idle ++ [first_c; first_a]) alice = Some 0 /\ emis_of (ops_idle ++ [first_c; first_a]) carol = Some 24685599200.
Proof. by vm_compute. Qed.
