(** * Concrete cases for C87 *)
From Verif Require Import Base Types Token Emitter Factory Backstop PoolReserve PoolUser PoolHealth
  PoolAuction PoolSubmit PoolEmis PoolAdmin World Facts XMove Spec PoolCfg BackMoves BackInv PropsAdmin PropsBackstop PropsBackstop6 PropsBackstop8 PropsBackstop9 PropsBackstop15 Scenario.

(** somebody installs the pool's code himself and initializes it like the factory would have *)
Definition fake : Addr := -8.
Definition ops_fake : list Op := ops_emit ++ [OInstall fake; OPool [admin] fake (PInit admin ORC 2000000 4 bs_addr BLND)].
Definition w_fake : World := run sc0 ops_fake.
Example ex_C87_hypotheses : all_ok sc0 ops_fake = true /\ ps_init (pool w_fake fake) = true /\ ps_backstop (pool w_fake fake) = bs_addr /\
  bool_decide (fake ∈ fa_deployed (x_fac (w_ext w_fake))) = false /\ bool_decide (P1 ∈ fa_deployed (x_fac (w_ext w_fake))) = true.
Proof. by vm_compute. Qed.
Example ex_C87_not_registered : reachable w_fake /\ ~ registered w_fake fake.
Proof.
  split; [exact (sc_reachable ops_fake)|]. intros H. destruct H as [_ H]. revert H.
  exact (bool_decide_eq_false_1 (fake ∈ fa_deployed (x_fac (w_ext w_fake))) ltac:(by vm_compute)).
Qed.
(** the same calls succeed for a deployed pool and fail for the other *)
Example ex_C87_calls :
  map (fun p => bool_decide (ret w_fake (OExt [carol] (BDeposit carol p 1000000)) = None)) [P1; fake] = [false; true] /\
  map (fun p => bool_decide (ret w_fake (OPool [] p PGulp) = None)) [P1; fake] = [false; true] /\
  (0 <? pb_tokens (pool_bal w_fake P1)) = true /\ (0 <? recorded w_fake P1) = true.
Proof. by vm_compute. Qed.
