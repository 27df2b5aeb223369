(** * Concrete cases for C89 *)
From Verif Require Import Base Types Token Emitter Factory Backstop PoolReserve PoolUser PoolHealth
  PoolAuction PoolSubmit PoolEmis PoolAdmin World Facts Spec PoolCfg Events PropsPool1 PropsPool3 PropsPool4 PropsBackstop PropsEvents1 PropsEvents2 PropsEmitter PropsAdmin PropsEvents5
  Scenario ScenarioPool PropsPool10 ExamplesAdmin.

(** a pool as it is deployed: no reserves, status 6 (setup) *)
Definition s0 : Settings := mkSettings admin 2000000 4 6 [] (fun _ => None) (fun _ => None) (fun _ => None).
Example ex_C89_init : ps_init (pool (run sc0 ops_deploy) P1) = true. Proof. by vm_compute. Qed.
Lemma empty_none {A} (m : gmap Z A) : map_to_list m = [] -> m = ∅.
Proof. apply map_to_list_empty_iff. Qed.
Example ex_C89_describes : describes s0 (pool (run sc0 ops_deploy) P1).
Proof.
  assert (let p := pool (run sc0 ops_deploy) P1 in (ps_admin p, ps_config p, ps_list p, map_to_list (ps_rcfg p), map_to_list (ps_queue p), map_to_list (ps_ecfg p)) = (admin, mkPoolConfig ORC 2000000 6 4, [], [], [], [])) as H by (by vm_compute).
  cbv zeta in H. generalize dependent (pool (run sc0 ops_deploy) P1). intros p H. injection H as H1 H2 H3 H4 H5 H6.
  apply empty_none in H4, H5, H6. unfold describes. rewrite H1, H2, H3, H4, H5, H6. do 5 (split; [done|]).
  split; [intros x; by rewrite lookup_empty|]. split; [intros x q Hq; by rewrite lookup_empty in Hq|]. intros id. by rewrite lookup_empty.
Qed.
(** what the events from the deployment to a day after a loan say: two reserves, the streams of AAA's supply and BBB's debt, the pool active *)
Definition told (l : list Op) : Settings := fold_left (settle P1) (map snd (event_log (run sc0 ops_deploy) l)) s0.
Definition ops_set : list Op := drop 5 ops_day.
Definition ops_adm : list Op := ops_set ++ [OPool [admin] P1 (PUpdatePool 1500000 3); OPool [admin; dave] P1 (PSetAdmin dave); OPool [dave] P1 (PQueueRes USDC cfgA); OPool [dave] P1 (PQueueRes AAA (cfgA <| rc_r_one := 600000 |>)); OPool [dave] P1 (PCancelRes USDC); OPool [dave] P1 (PSetStatus 2)].
Example ex_C89_told : let s := told ops_set in
  (st_admin s, st_rate s, st_max s, st_status s, st_list s) = (admin, 2000000, 4, 0, [AAA; BBB]) /\
  (st_cfg s AAA, st_cfg s BBB, st_cfg s BLND) = (Some cfgA, Some (cfgA <| rc_index := 1 |>), None) /\ (st_wait s AAA, st_wait s BBB) = (None, None) /\
  map (st_emis s) [0; 1; 2; 3] = map (stream (ps_ecfg (pool (run sc0 ops_day) P1))) [0; 1; 2; 3] /\
  map (fun o => match o with Some _ => true | None => false end) (map (st_emis s) [0; 1; 2; 3]) = [false; true; true; false].
Proof. by vm_compute. Qed.
Example ex_C89_admin : let s := told ops_adm in
  (st_admin s, st_rate s, st_max s, st_status s, st_list s) = (dave, 1500000, 3, 2, [AAA; BBB]) /\
  (st_wait s AAA, st_wait s USDC) = (Some (cfgA <| rc_r_one := 600000 |>), None) /\ all_ok (run sc0 ops_deploy) ops_adm = true.
Proof. by vm_compute. Qed.
(** a queued change of AAA takes effect after a week, and AAA keeps its place *)
Example ex_C89_change : let s := told (ops_adm ++ [OTick 604800 120960; OPool [] P1 (PSetRes AAA)]) in
  (st_list s, st_cfg s AAA, st_wait s AAA) = ([AAA; BBB], Some (cfgA <| rc_r_one := 600000 |>), None).
Proof. by vm_compute. Qed.

(** Finding: [set_emissions_config] publishes nothing, so the shares of a pool's emissions cannot be replayed. *)
Theorem C89_emission_shares_unpublished : exists w o w', reachable w /\ exec w o = Ok (OutUnit, w') /\ events w o = [] /\
  map_to_list (ps_pemis (pool w P1)) = [(1, 4000000); (2, 6000000)] /\ map_to_list (ps_pemis (pool w' P1)) = [(0, 3000000)].
Proof.
  destruct (ret_exec (run sc0 ops_pool) (emis_op [(0, 0, 3000000)]) OutUnit) as [w' H]; [by vm_compute|].
  exists (run sc0 ops_pool), (emis_op [(0, 0, 3000000)]), w'. split; [exact (sc_reachable _)|]. split; [exact H|].
  assert (w' = step (run sc0 ops_pool) (emis_op [(0, 0, 3000000)])) as -> by (unfold step; by rewrite H). clear H. by vm_compute.
Qed.
(** Finding: the factory's [deploy] event names the pool only, and [initialize] publishes nothing: the settings a pool starts with are not published. *)
Definition dep_op (rate m : Z) : Op := ODeploy [admin] admin 1 ORC rate m.
Theorem C89_first_settings_unpublished : exists w o1 o2, reachable w /\ events w o1 = [VDeploy P1] /\ events w o2 = [VDeploy P1] /\
  ps_config (pool (step w o1) P1) = mkPoolConfig ORC 2000000 6 4 /\ ps_config (pool (step w o2) P1) = mkPoolConfig ORC 3000000 6 2.
Proof. exists (run sc0 (take 3 ops_deploy)), (dep_op 2000000 4), (dep_op 3000000 2). split; [exact (sc_reachable _)|]. by vm_compute. Qed.
