(** * Concrete cases for C79 *)
From Verif Require Import PropsBackstop8 PropsBackstop9 PropsBackstop13.
From Verif Require Import Base Types Token Emitter Factory Backstop PoolReserve PoolUser PoolHealth
  PoolAuction PoolSubmit PoolEmis PoolAdmin World Facts XMove Spec PoolCfg PropsBackstop PropsBackstop7 PropsPool35 Scenario ScenarioPool.

(** a second day of emissions is distributed over the two pools of the reward zone, which hold two thirds and one third of the unqueued tokens *)
Definition ops_again : list Op := ops_emit ++ [OTick 86400 17280; OExt [] EDistribute].
Example ex_C79_distribution : let w := run sc0 ops_again in let w' := step w (OExt [] BGulp) in
  ret w (OExt [] BGulp) = Some (OutZ 864000000000) /\ zone w = [P2; P1] /\ zone_tokens w = 750000000000 /\ zone_share w P1 = 6666666 /\ zone_share w P2 = 3333333 /\
  recorded w' P1 - recorded w P1 = 172799982720 /\ recorded w' P2 - recorded w P2 = 86399991360 /\
  (bs_ecfg (x_bs (w_ext w)) !! P1, w_now w) = (Some (mkEmisConfig (t0 + 86400 + 604800) 666666), t0 + 2 * 86400) /\
  bs_ecfg (x_bs (w_ext w')) !! P1 = Some (mkEmisConfig (t0 + 2 * 86400 + 604800) 1238094).
Proof. by vm_compute. Qed.
(** the first collection of the pool of [ops_pool]: 40% to the suppliers of the first reserve, 60% to the borrowers of the second *)
Definition ops_conf : list Op := ops_emit ++
  [OPool [admin] P1 (PQueueRes AAA cfgA); OPool [admin] P1 (PQueueRes BBB cfgA); OPool [] P1 (PSetRes AAA); OPool [] P1 (PSetRes BBB);
   OPool [admin] P1 (PSetEmis [mkEmisMeta 0 1 4000000; mkEmisMeta 1 0 6000000])].
Example ex_C79_pool : let w := run sc0 ops_conf in let w' := step w (OPool [] P1 PGulp) in
  ret w (OPool [] P1 PGulp) = Some (OutZ 172799982720) /\ recorded w P1 = 172799982720 /\ recorded w' P1 = 0 /\
  ps_pemis (pool w P1) !! 1 = Some 4000000 /\ ps_pemis (pool w P1) !! 2 = Some 6000000 /\ ps_pemis (pool w P1) !! 0 = None /\
  ps_ecfg (pool w' P1) !! 1 = Some (mkEmisConfig (t0 + 86400 + 604800) 114285) /\ ps_ecfg (pool w' P1) !! 2 = Some (mkEmisConfig (t0 + 86400 + 604800) 171428) /\
  ps_ecfg (pool w' P1) !! 0 = None.
Proof. by vm_compute. Qed.
(** the finding: a stranger collects for the pool before its admin has configured its emissions; after that nothing is left to collect *)
Definition ops_unconf : list Op := ops_emit ++
  [OPool [admin] P1 (PQueueRes AAA cfgA); OPool [admin] P1 (PQueueRes BBB cfgA); OPool [] P1 (PSetRes AAA); OPool [] P1 (PSetRes BBB)].
Definition conf_op : Op := OPool [admin] P1 (PSetEmis [mkEmisMeta 0 1 4000000; mkEmisMeta 1 0 6000000]).
Example ex_C79_unconfigured : let w := run sc0 ops_unconf in let w' := step w (OPool [carol] P1 PGulp) in let w'' := step w' conf_op in
  map_to_list (ps_pemis (pool w P1)) = [] /\ ret w (OPool [carol] P1 PGulp) = Some (OutZ 172799982720) /\ recorded w' P1 = 0 /\
  map_to_list (ps_ecfg (pool w' P1)) = [] /\ ret w' conf_op <> None /\ ret w'' (OPool [] P1 PGulp) = None.
Proof. by vm_compute. Qed.
Example ex_C79_reachable : reachable (run sc0 ops_again) /\ reachable (run sc0 ops_conf) /\ reachable (run sc0 ops_unconf).
Proof. split; [apply sc_reachable|]. split; apply sc_reachable. Qed.
