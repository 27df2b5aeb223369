(** * Concrete cases for C93 *)
From Coq Require Import QArith Lqa.
From Verif Require Import Base Types Token Emitter Factory Backstop PoolReserve PoolUser PoolHealth
  PoolAuction PoolSubmit PoolEmis PoolAdmin World Facts XMove Spec PoolFrame PoolCfg PoolHF PoolAccrue PropsPool1 PropsPool2 PropsPool5 PropsPool19 PropsPool39 PropsPool40
  Scenario ScenarioPool ExamplesPool20.
Local Open Scope Z_scope.

(** alice signs nothing for twenty seconds in which bob brings the interest up to date each second:
    the hypotheses of both theorems hold (those on the rate are [ex_C92_hyps]), and her debt of
    5216.6 BBB grows by 0.0002 BBB *)
Example ex_C93_silent :
  forallb (fun o => bool_decide (alice ∉ signers o)) (seconds 20) = true /\
  ps_init (pool after_year P1) = true /\ (alice =? ps_backstop (pool after_year P1)) = false /\
  owes after_year P1 alice 1 BBB = 52166670000 /\ owes (run after_year (seconds 20)) P1 alice 1 BBB = 52166672000.
Proof. repeat (split; [by vm_compute|]). by vm_compute. Qed.

(** a liquidation that carol fills in half takes 30 percent of alice's dTokens off her *)
Definition liquidation : list Op :=
  [OPool [] P1 (PNewLiq alice 60); submit_op carol [(2, AAA, 500000000000)]; OTick 500 100; submit_op carol [(6, alice, 50)]].
Example ex_C93_liquidated :
  all_ok (run sc0 ops_year) liquidation = true /\ forallb (fun o => bool_decide (alice ∉ signers o)) liquidation = true /\
  liab_of (run sc0 ops_year) P1 alice 1 = 50000000000 /\ liab_of (run (run sc0 ops_year) liquidation) P1 alice 1 = 35000000000.
Proof. repeat (split; [by vm_compute|]). by vm_compute. Qed.

(** the backstop has to be excepted: it signs nothing and takes over the debt that a liquidation has
    left without collateral *)
Definition crash : list Op := skipn (length ops_loan) ops_baddebt.
Example ex_C93_backstop : ps_init (pool (run sc0 ops_loan) P1) = true /\ ps_backstop (pool (run sc0 ops_loan) P1) = bs_addr /\
  forallb (fun o => bool_decide (bs_addr ∉ signers o)) crash = true /\
  liab_of (run sc0 ops_loan) P1 bs_addr 1 = 0 /\ (0 <? liab_of (run (run sc0 ops_loan) crash) P1 bs_addr 1) = true.
Proof. repeat (split; [by vm_compute|]). by vm_compute. Qed.
