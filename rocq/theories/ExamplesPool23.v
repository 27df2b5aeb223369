(** * Concrete cases for C95 *)
From Verif Require Import Base Types Token Emitter Factory Backstop PoolReserve PoolUser PoolHealth
  PoolAuction PoolSubmit PoolEmis PoolAdmin World Facts XMove Spec PoolFrame PoolCfg PoolHF PropsPool1 PropsPool2 PropsPool4 PropsPool38 PropsPool42
  Scenario ScenarioPool.

(** the prices of 1 quoted with [dec] decimals, and alice's loan extended by [amt] *)
Definition orc_dec (dec : Z) : Oracle := mkOracle (list_to_map [(ORC, dec)])
  (list_to_map (map (fun r => ((ORC, r), (10 ^ dec, t0 + 86400))) [AAA; BBB; USDC; BLND])).
Definition before (dec : Z) : World := run sc0 (ops_loan ++ [OOracle (orc_dec dec)]).
Definition borrow (amt : Z) : Op := submit_op alice [(4, BBB, amt)].
Definition after (dec amt : Z) : World := run (before dec) [borrow amt].

(** the theorem applies to a loan that leaves next to no margin: her weighted debt is then 7499 of a
    coverage of 7500, at 7 decimals; the whole of it is refused *)
Example ex_C95 : all_ok (before 7) [borrow 6249000000] = true /\ all_ok (before 7) [borrow 6250000000] = false /\
  weighted_debt (after 7 6249000000) P1 alice = 74998666667 /\ weighted_coll (after 7 6249000000) P1 alice = 75000000000 /\
  map (fun r => price_of (pool (before 7) P1) (w_ext (before 7)) r) (reserve_list (before 7) P1) = [10000000; 10000000] /\
  (alice =? ps_backstop (pool (after 7 6249000000) P1)) = false /\ auction (after 7 6249000000) P1 0 alice = None /\
  o_dec (x_orc (w_ext (after 7 6249000000))) !! pc_oracle (ps_config (pool (after 7 6249000000) P1)) = Some 7 /\
  all_ok (after 7 6249000000) [OPool [] P1 (PNewLiq alice 10)] = false /\ all_ok (after 7 6249000000) [OPool [] P1 (PNewLiq alice 20)] = false.
Proof. repeat (split; [by vm_compute|]). by vm_compute. Qed.

(** Finding: with an oracle of fewer than five decimals the required health factor of 1.00001 is
    rounded down to 1, while an account may be liquidated at a health factor of exactly 1: alice can
    take a loan for which anybody can liquidate her at once *)
Example ex_C95_few_decimals : all_ok (before 4) [borrow 6250000000; OPool [] P1 (PNewLiq alice 20)] = true /\
  weighted_debt (after 4 6250000000) P1 alice = 75000000 /\ weighted_coll (after 4 6250000000) P1 alice = 75000000 /\
  all_ok (before 5) [borrow 6250000000] = false.
Proof. repeat (split; [by vm_compute|]). by vm_compute. Qed.
