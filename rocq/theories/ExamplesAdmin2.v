(** * Concrete cases for C74 *)
From Verif Require Import Base Types Token Emitter Factory Backstop PoolReserve PoolUser PoolHealth
  PoolAuction PoolSubmit PoolEmis PoolAdmin World Facts XMove Spec PoolCfg PoolInv PoolEmisInv PropsPool1 PropsPool10 PropsAdmin4 Scenario ScenarioPool.

(** with a loan open and emissions running, a change of the reserve AAA that was queued a week ago is applied, the pool is frozen, its
    emissions are redirected, its settings are changed and it gets a new admin; a stranger's attempt in between fails *)
Definition ops_queued : list Op := ops_loan ++ [OPool [admin] P1 (PQueueRes AAA (cfgA <| rc_c_factor := 1000000 |>)); OTick 604800 120960].
Definition ops_admin : list Op :=
  [OPool [] P1 (PSetRes AAA); OPool [admin] P1 (PSetStatus 4); OPool [carol] P1 (PSetStatus 0); OPool [admin] P1 (PSetEmis [mkEmisMeta 1 1 10000000]);
   OPool [admin; bob] P1 (PSetAdmin bob); OPool [bob] P1 (PUpdatePool 2000000 3)].
Example ex_C74_calls : Forall (admin_call P1) ops_admin.
Proof. repeat constructor; eexists _, _; (split; [reflexivity|done]). Qed.
Example ex_C74_happens : all_ok sc0 ops_queued = true /\ reachable (run sc0 ops_queued) /\
  map (fun k => match ret (run sc0 (ops_queued ++ take k ops_admin)) (nth k ops_admin OExpireDrop) with Some _ => true | None => false end) (seq 0 6) =
    [true; true; false; true; true; true].
Proof. split; [by vm_compute|]. split; [apply sc_reachable|by vm_compute]. Qed.
(** what is administered does change *)
Example ex_C74_changes : let w := run sc0 ops_queued in let w' := run sc0 (ops_queued ++ ops_admin) in
  ps_admin (pool w' P1) = bob /\ pc_status (ps_config (pool w' P1)) = 4 /\ pc_bstop_rate (ps_config (pool w' P1)) = 2000000 /\
  (rc_c_factor <$> ps_rcfg (pool w' P1) !! AAA) = Some 1000000 /\ (rc_c_factor <$> ps_rcfg (pool w P1) !! AAA) = Some 7500000 /\
  0 < claimable (w_now w) (pool w P1) alice 1 /\ claimable (w_now w') (pool w' P1) alice 1 = claimable (w_now w) (pool w P1) alice 1.
Proof. by vm_compute. Qed.
