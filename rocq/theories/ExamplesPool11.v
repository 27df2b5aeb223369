(** * Concrete cases for C70 *)
From Verif Require Import Base Types Token Emitter Factory Backstop PoolReserve PoolUser PoolHealth
  PoolAuction PoolSubmit PoolEmis PoolAdmin World Facts XMove Spec PropsPool1 PropsPool2 PropsPool3 PropsPool28 Scenario ScenarioPool.

(** carol fills half of alice's liquidation, repays a part of the debt she took over, takes some collateral out and borrows the other
    token: accepted at once and in two parts *)
Definition qs_a : list (Z * Z * Z) := [(6, alice, 50); (5, BBB, 10000000000)].
Definition qs_b : list (Z * Z * Z) := [(3, AAA, 200000000000); (4, BBB, 3000000000); (6, alice, 100)].
Example ex_C70_hypotheses :
  all_ok sc0 (ops_wait ++ [submit_op carol (qs_a ++ qs_b)]) = true /\
  all_ok sc0 (ops_wait ++ [submit_op carol qs_a; submit_op carol qs_b]) = true.
Proof. split; by vm_compute. Qed.

(** being accepted is different: borrowing before the collateral is there works in one submission only ... *)
Example ex_C70_batch_only :
  all_ok sc0 (ops_loan ++ [submit_op carol [(4, BBB, 3000000000); (2, AAA, 200000000000)]]) = true /\
  ret (run sc0 ops_loan) (submit_op carol [(4, BBB, 3000000000)]) = None.
Proof. split; by vm_compute. Qed.
(** ... and paying with the tokens one has just received works in two only *)
Example ex_C70_parts_only :
  let n := balance (x_tok (w_ext (run sc0 ops_loan))) AAA carol in
  all_ok sc0 (ops_loan ++ [submit_op carol [(0, AAA, n)]; submit_op carol [(1, AAA, 5000)]; submit_op carol [(2, AAA, 5000)]]) = true /\
  all_ok sc0 (ops_loan ++ [submit_op carol [(0, AAA, n)]; submit_op carol [(1, AAA, 5000); (2, AAA, 5000)]]) = false.
Proof. split; by vm_compute. Qed.
