(** * Concrete cases for C85 *)
From Verif Require Import Base Types World Spec Scenario ScenarioPool PropsPool1 PropsPool3 PropsPool11 PropsPool37 ExamplesEvents.

(** surplus and dust of both reserves after a history, and whether it is free of gifts *)
Definition dust_sheet (l : list Op) : list (Z * Z * bool) :=
  map (fun r => (surplus (run sc0 l) P1 r, dust sc0 P1 r l, gift_free sc0 P1 l)) [AAA; BBB].

(** a supply and a loan at par lose nothing *)
Example ex_C85_loan : dust_sheet ops_loan = [(0, 1000000000, true); (0, 3000000000, true)]. Proof. by vm_compute. Qed.
(** a year of interest, a liquidation, and an interest auction: 20 units of dust are left in the pool, at most 306 and 205 are allowed *)
Example ex_C85_fill : dust_sheet ops_fill = [(0, 805000000000, true); (20000000000, 306000000000, true)]. Proof. by vm_compute. Qed.
Example ex_C85_interest : dust_sheet ops_intfill = [(0, 203000000000, true); (20000000000, 205000000000, true)]. Proof. by vm_compute. Qed.
(** bad debt is burned: what was burned is part of the account *)
Example ex_C85_burn : dust_sheet ops_burn = [(0, 3208000000000, true); (80000000000, 509000000000, true)] /\ (0 <? burned (run sc0 ops_burn) P1 BBB) = true.
Proof. by vm_compute. Qed.
(** the hypotheses of the theorems hold of these histories *)
Example ex_C85_fill_law : surplus (run sc0 ops_fill) P1 BBB <= surplus sc0 P1 BBB + dust sc0 P1 BBB ops_fill.
Proof.
  apply C85_value_conserved_history; [exact (sc_reachable [])|done|]. apply gift_free_spec. by vm_compute.
Qed.

(** finding: somebody sends the pool 10'000 BBB, the supplier withdraws almost half of its supply although half of it is lent out, and a year
    later 60% of the backstop's credit is sold for cash. The debt now exceeds the suppliers' claims and the credit together: the invariant
    the project's fuzzer asserts fails *)
Definition ops_gift : list Op := ops_loan ++
  [OExt [] (TMint BBB P1 100000000000); submit_op bob [(1, BBB, 49000000000)]; OTick 31536000 5000000;
   OOracle (orc0 (t0 + 86400 + 31536000) 70000000 70000000);
   OPool [] P1 (PNewInterest [BBB]); OTick 500 101; submit_op carol [(8, bs_addr, 60)]].
Definition lent_too_much (w : World) (a r : Addr) : bool :=
  match reserve w a r with
  | Some d => rd_b_supply d * rd_b_rate d + 1000000000 * rd_credit d <? 1000000000 * (rd_d_supply d * rd_d_rate d / 1000000000)
  | None => false
  end.
Example ex_C85_gift : all_ok sc0 ops_gift = true /\ lent_too_much (run sc0 ops_gift) P1 BBB = true /\
  lent_too_much (run sc0 ops_loan) P1 BBB = false /\ lent_too_much (run sc0 ops_intfill) P1 BBB = false /\
  dust_sheet ops_gift = [(0, 203000000000, false); (100000000035000000000, 108000000000, false)].
Proof. by vm_compute. Qed.
