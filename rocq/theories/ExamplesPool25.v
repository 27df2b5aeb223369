(** * Concrete cases for C97 *)
From Verif Require Import Base Types Token Emitter Factory Backstop PoolReserve PoolUser PoolHealth
  PoolAuction PoolSubmit PoolEmis PoolAdmin World Facts XMove Spec PoolFrame PoolCfg PropsPool1 PropsPool2 PropsPool3 PropsPool44
  Scenario ScenarioPool ExamplesPool20.

Definition gain (w0 w : World) (u : Addr) : Z := worth w0 P1 BBB (account w P1 u) - worth w0 P1 BBB (account w0 P1 u).
Definition succeeds (w : World) (o : Op) : bool := match exec w o with Ok _ => true | Err _ => false end.
(** after a year a bToken is worth 1.01733336 and a dToken 1.0433334: supplying 2 units buys one
    bToken and costs the supplier 0.98266664; borrowing one unit is charged as 1.0433334 *)
Definition supply2 : Op := submit_op bob [(0, BBB, 2)].
Definition both : Op := submit_op bob [(0, BBB, 1000); (1, BBB, 300)].
Definition loan1 : Op := submit_op alice [(4, BBB, 1)].
Example ex_C97_hyps : reachable after_year /\ is_Some (reserve after_year P1 BBB) /\
  succeeds after_year supply2 = true /\ succeeds after_year both = true /\ succeeds after_year loan1 = true.
Proof. split; [exact (sc_reachable _)|]. split; [apply is_some_spec; by vm_compute|]. repeat (split; [by vm_compute|]). by vm_compute. Qed.
Example ex_C97_supply : (b_rate_now after_year P1 BBB, d_rate_now after_year P1 BBB) = (1017333360, 1043333400) /\
  gain after_year (step after_year supply2) bob = 2000000000 - 982666640 /\
  gain after_year (step after_year loan1) alice = - 1000000000 - 43333400.
Proof. repeat (split; [by vm_compute|]). by vm_compute. Qed.
(** the two requests of [both] cost 1.09198168 units more than the 700 that bob pays on balance; at
    most 2.034666718 *)
Example ex_C97_both :
  gain after_year (step after_year both) bob = 1000000000 * 700 - 1091981680 /\
  held (step after_year both) BBB P1 - held after_year BBB P1 = 700 /\
  rounding (b_rate_now after_year P1 BBB) (d_rate_now after_year P1 BBB) BBB [mkReq 0 BBB 1000; mkReq 1 BBB 300] = 2034666718.
Proof. repeat (split; [by vm_compute|]). by vm_compute. Qed.
(** what would buy no bToken at all is refused *)
Example ex_C97_dust : succeeds after_year (submit_op bob [(0, BBB, 1)]) = false.
Proof. by vm_compute. Qed.
