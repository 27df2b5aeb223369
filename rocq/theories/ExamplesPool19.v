(** * Concrete cases for C91 *)
From Verif Require Import Base Types Token Emitter Factory Backstop PoolReserve PoolUser PoolHealth
  PoolAuction PoolSubmit PoolEmis PoolAdmin World Facts Spec PoolCfg PoolHF PropsPool1 PropsPool2 PropsPool4 PropsPool30 PropsPool36 PropsPool38
  Scenario ScenarioPool PropsPool10 ExamplesAdmin.

(** alice owes BBB against AAA; bob and carol trade, the oracle quotes AAA higher and BBB lower, the emissions and the status are updated *)
Definition ops_calm : list Op :=
  [submit_op carol [(2, BBB, 300000000000); (4, AAA, 20000000000)]; OOracle (orc0 (t0 + 86400) 11000000 9000000); submit_op bob [(1, BBB, 40000000000)];
   OPool [] P1 PUpdateStatus; OPool [admin] P1 (PSetStatus 2); OPool [] P1 (PNewLiq alice 20); OOracle (orc0 (t0 + 86400) 10000000 9900000)].
Example ex_C91_hypotheses : let w := run sc0 ops_loan in
  ps_init (pool w P1) = true /\ alice =? ps_backstop (pool w P1) = false /\ auction w P1 0 alice = None /\ weighted_debt w P1 alice = 66666666667 /\ weighted_coll w P1 alice = 75000000000 /\
  forallb (fun o => negb (existsb (Z.eqb alice) (signers o))) ops_calm = true.
Proof. by vm_compute. Qed.
Example ex_C91_calm : Forall (calm P1) ops_calm.
Proof. unfold ops_calm. repeat (constructor; [by split; [split|]|]). constructor. Qed.
Example ex_C91_no_worse : forall orc, OOracle orc ∈ ops_calm -> no_worse (run sc0 ops_loan) P1 alice orc.
Proof.
  intros orc H.
  assert (let w := run sc0 ops_loan in (reserve_list w P1, [coll_of w P1 alice 0; coll_of w P1 alice 1; liab_of w P1 alice 0; liab_of w P1 alice 1],
    map (quote w P1 (x_orc (w_ext w))) [AAA; BBB], map (quote w P1 (orc0 (t0 + 86400) 11000000 9000000)) [AAA; BBB], map (quote w P1 (orc0 (t0 + 86400) 10000000 9900000)) [AAA; BBB]) =
    ([AAA; BBB], [100000000000; 0; 0; 50000000000], [10000000; 10000000], [11000000; 9000000], [10000000; 9900000])) as E by (by vm_compute).
  cbv zeta in E. generalize dependent (run sc0 ops_loan). intros w E. injection E as E1 E2 E3 E4 E5 E6 E7 E8 E9 E10 E11.
  assert (orc = orc0 (t0 + 86400) 11000000 9000000 \/ orc = orc0 (t0 + 86400) 10000000 9900000) as Ho.
  { unfold ops_calm in H. repeat (apply elem_of_cons in H as [H|H]; [first [discriminate H | injection H as ->; by left | injection H as ->; by right]|]). by apply elem_of_nil in H. }
  intros i r Hi. rewrite E1 in Hi. destruct i as [|[|i]]; [| |done]; injection Hi as <-.
  - change (Z.of_nat 0) with 0. rewrite E2, E4. destruct Ho as [-> | ->]; lia.
  - change (Z.of_nat 1) with 1. rewrite E3, E5. destruct Ho as [-> | ->]; lia.
Qed.
Example ex_C91_outcome : let w := run sc0 (ops_loan ++ ops_calm) in
  weighted_debt w P1 alice = 66000000001 /\ weighted_coll w P1 alice = 75000000000 /\
  map (fun o => match ret (run sc0 (ops_loan ++ take (fst o) ops_calm)) (snd o) with Some _ => true | None => false end) (combine (seq 0 7) ops_calm) = [true; true; true; true; true; false; true].
Proof. by vm_compute. Qed.

(** each of the causes that the theorem excludes can make alice's account liquidatable while she does nothing: three years of interest at constant
    prices, a price against her, and a queued change of the collateral factor, which anybody can set after a week *)
Definition still (n : Z) : list Op := ops_loan ++ [OTick n 100; OOracle (orc0 (t0 + 86400 + n) 10000000 10000000)].
Definition ops_queued : list Op := ops_loan ++ [OPool [admin] P1 (PQueueRes AAA (cfgA <| rc_c_factor := 6600000 |>)); OTick 604800 120960; OOracle (orc0 (t0 + 86400 + 604800) 10000000 10000000)].
Example ex_C91_causes : let liq := OPool [] P1 (PNewLiq alice 20) in
  no ops_loan liq /\ yes (still (3 * 31536000)) liq /\ yes (ops_loan ++ [OOracle (orc0 (t0 + 86400) 10000000 11300000)]) liq /\
  yes (ops_loan ++ [OOracle (orc0 (t0 + 86400) 8800000 10000000)]) liq /\ no ops_queued liq /\ yes (ops_queued ++ [OPool [dave] P1 (PSetRes AAA)]) liq.
Proof. all_vm. Qed.
