(** * Concrete cases for C61 and C62 *)
From Verif Require Import Base Types Token Emitter Factory Backstop PoolReserve PoolUser PoolHealth
  PoolAuction PoolSubmit PoolEmis PoolAdmin World Facts XMove Spec PoolFrame PoolCfg PropsEmitter PropsAdmin PropsBackstop PropsPool7 PropsAdmin2 PropsAdmin3 Scenario ScenarioPool.

(** accepted and refused, in the state after [ops] *)
Definition yes (ops : list Op) (o : Op) : Prop := ret (run sc0 ops) o <> None.
Definition no (ops : list Op) (o : Op) : Prop := ret (run sc0 ops) o = None.
Lemma yes_succeeds ops o : yes ops o -> succeeds (run sc0 ops) o.
Proof. unfold yes, succeeds, ret. destruct (exec _ o) as [[out w']|]; [eauto|done]. Qed.
Ltac all_vm := repeat (split; [by vm_compute|]); by vm_compute.

(** ** C61 *)
Definition ops_inst : list Op := ops_deploy ++ [OInstall (-8)].
Example ex_C61 :
  yes [] (OExt [] (EInit BLND bs_addr LP)) /\ no ops_deploy (OExt [] (EInit BLND bs_addr LP)) /\
  yes [] (OExt [] (FInit bs_addr BLND)) /\ no ops_deploy (OExt [] (FInit bs_addr BLND)) /\
  no [] (OExt [] (BInit LP em_addr USDC BLND fac_addr [])) /\
  yes [OExt [] (EInit BLND bs_addr LP)] (OExt [] (BInit LP em_addr USDC BLND fac_addr [])) /\
  no [OExt [] (EInit BLND bob LP)] (OExt [] (BInit LP em_addr USDC BLND fac_addr [])) /\
  no ops_deploy (OExt [] (BInit LP em_addr USDC BLND fac_addr [])) /\
  yes ops_inst (OPool [admin] (-8) (PInit admin ORC 2000000 4 bs_addr BLND)) /\
  no ops_inst (OPool [bob] (-8) (PInit admin ORC 2000000 4 bs_addr BLND)) /\
  no ops_inst (OPool [admin] (-8) (PInit admin ORC 10000000 4 bs_addr BLND)) /\
  yes ops_inst (OPool [admin] (-8) (PInit admin ORC 9999999 2 bs_addr BLND)) /\
  no ops_inst (OPool [admin] (-8) (PInit admin ORC 9999999 1 bs_addr BLND)) /\
  no ops_inst (OPool [admin] P1 (PInit admin ORC 2000000 4 bs_addr BLND)) /\
  em_init (emitter (run sc0 ops_deploy)) = true /\ ps_init (pool (run sc0 ops_deploy) P1) = true.
Proof. all_vm. Qed.

(** ** C62 *)
Example ex_C62_deploy :
  yes ops_deploy (ODeploy [admin] admin 3 ORC 9999999 2) /\ no ops_deploy (ODeploy [admin] admin 3 ORC 10000000 2) /\
  no ops_deploy (ODeploy [admin] admin 3 ORC 9999999 1) /\ no ops_deploy (ODeploy [bob] admin 3 ORC 9999999 2) /\
  no ops_deploy (ODeploy [admin] admin 2 ORC 9999999 2) /\ yes ops_deploy (ODeploy [bob] bob 2 ORC 9999999 2) /\
  no [] (ODeploy [admin] admin 3 ORC 9999999 2).
Proof. all_vm. Qed.
Example ex_C62_admin :
  yes ops_deploy (OPool [admin; bob] P1 (PSetAdmin bob)) /\ no ops_deploy (OPool [admin] P1 (PSetAdmin bob)) /\ no ops_deploy (OPool [bob] P1 (PSetAdmin bob)) /\
  yes ops_deploy (OPool [admin] P1 (PUpdatePool 9999999 3)) /\ no ops_deploy (OPool [admin] P1 (PUpdatePool 10000000 3)) /\ no ops_deploy (OPool [bob] P1 (PUpdatePool 9999999 3)).
Proof. all_vm. Qed.
(** a reserve added while the pool is being set up (no delay) and one queued later (a week) *)
Definition queue_op (r : Addr) (m : ResConfig) : Op := OPool [admin] P1 (PQueueRes r m).
Definition ops_queued : list Op := ops_pool ++ [queue_op LP cfgA].
Example ex_C62_queue :
  yes ops_pool (queue_op LP (cfgA <| rc_r_base := 1000 |>)) /\ no ops_pool (queue_op LP (cfgA <| rc_r_base := 999 |>)) /\
  yes ops_pool (queue_op LP (cfgA <| rc_r_base := 9999999 |>)) /\ no ops_pool (queue_op LP (cfgA <| rc_r_base := 10000000 |>)) /\
  yes ops_pool (queue_op LP (cfgA <| rc_util := 9500000 |> <| rc_max_util := 9500001 |>)) /\ no ops_pool (queue_op LP (cfgA <| rc_util := 9500000 |>)) /\
  no ops_pool (queue_op LP (cfgA <| rc_util := 9500001 |> <| rc_max_util := 9900000 |>)) /\
  yes ops_pool (queue_op LP (cfgA <| rc_max_util := 10000000 |>)) /\ no ops_pool (queue_op LP (cfgA <| rc_max_util := 10000001 |>)) /\
  yes ops_pool (queue_op LP (cfgA <| rc_decimals := 18 |>)) /\ no ops_pool (queue_op LP (cfgA <| rc_decimals := 19 |>)) /\
  yes ops_pool (queue_op LP (cfgA <| rc_c_factor := 10000000 |> <| rc_l_factor := 10000000 |>)) /\
  no ops_pool (queue_op LP (cfgA <| rc_c_factor := 10000001 |>)) /\ no ops_pool (queue_op LP (cfgA <| rc_l_factor := 10000001 |>)) /\
  yes ops_pool (queue_op LP (cfgA <| rc_reactivity := 1000 |>)) /\ no ops_pool (queue_op LP (cfgA <| rc_reactivity := 1001 |>)) /\
  no ops_pool (queue_op LP (cfgA <| rc_r_one := 5000001 |>)) /\ no ops_pool (queue_op LP (cfgA <| rc_r_two := 15000001 |>)) /\
  no ops_pool (OPool [bob] P1 (PQueueRes LP cfgA)) /\ no ops_queued (queue_op LP cfgA) /\
  yes ops_queued (OPool [admin] P1 (PCancelRes LP)) /\ no ops_queued (OPool [bob] P1 (PCancelRes LP)).
Proof. all_vm. Qed.
Example ex_C62_set_reserve :
  no ops_queued (OPool [] P1 (PSetRes LP)) /\ no (ops_queued ++ [OTick 604799 1000]) (OPool [] P1 (PSetRes LP)) /\
  yes (ops_queued ++ [OTick 604800 1000]) (OPool [bob] P1 (PSetRes LP)) /\ no (ops_pool ++ [OTick 604800 1000]) (OPool [] P1 (PSetRes LP)) /\
  res_cfg (run sc0 ops_queued) P1 LP = None /\ res_cfg (run sc0 ops_queued) P1 AAA = Some cfgA /\
  (let l := ops_year ++ [queue_op BBB (cfgA <| rc_c_factor := 5 |>); OTick 604800 1000] in
   yes l (OPool [] P1 (PSetRes BBB)) /\ w_now (run sc0 l) = w_now (run sc0 (l ++ [OPool [] P1 (PSetRes BBB)])) /\
   res_cfg (run sc0 (l ++ [OPool [] P1 (PSetRes BBB)])) P1 BBB = Some (cfgA <| rc_index := 1 |> <| rc_c_factor := 5 |>)) /\
  no (ops_year ++ [queue_op BBB (cfgA <| rc_decimals := 8 |>); OTick 604800 1000]) (OPool [] P1 (PSetRes BBB)).
Proof. do 6 (split; [by vm_compute|]). split; [|by vm_compute]. cbv zeta. all_vm. Qed.
(** the backstop's report for the first pool: no queued withdrawals, deposits above the threshold *)
Definition ops_small : list Op := ops_deploy ++ [OExt [] BUpdTkn; OExt [alice] (BDeposit alice P1 5000)].
Example ex_C62_reported : reported (run sc0 ops_pool) P1 0 True /\ reported (run sc0 ops_small) P1 0 False.
Proof.
  split; (split; [by vm_compute|]).
  - assert (match pool_data (w_ext (run sc0 ops_pool)) P1 with Ok d => (pd_q4w_pct d =? 0) && (THRESHOLD <=? exact_product (pd_blnd d) (pd_usdc d)) | Err _ => false end = true) as H by (by vm_compute).
    destruct (pool_data _ _) as [d|]; [|done]. exists d. apply andb_true_iff in H as [H1 H2]. apply Z.eqb_eq in H1. apply Z.leb_le in H2. done.
  - assert (match pool_data (w_ext (run sc0 ops_small)) P1 with Ok d => (pd_q4w_pct d =? 0) && (exact_product (pd_blnd d) (pd_usdc d) <? THRESHOLD) | Err _ => false end = true) as H by (by vm_compute).
    destruct (pool_data _ _) as [d|]; [|done]. exists d. apply andb_true_iff in H as [H1 H2]. apply Z.eqb_eq in H1. apply Z.ltb_lt in H2. split; [done|]. split; [done|]. split; [done|lia].
Qed.
(** queueing half of the deposits puts the pool on ice, three quarters freeze it *)
Definition ops_q4w (n : Z) : list Op := ops_pool ++ [OExt [alice] (BQueue alice P1 n)].
Example ex_C62_status :
  yes (ops_q4w 249999000000) (OPool [admin] P1 (PSetStatus 0)) /\ no (ops_q4w 250000000000) (OPool [admin] P1 (PSetStatus 0)) /\
  yes (ops_q4w 374999000000) (OPool [admin] P1 (PSetStatus 2)) /\ no (ops_q4w 375000000000) (OPool [admin] P1 (PSetStatus 2)) /\
  yes (ops_q4w 374999000000) (OPool [admin] P1 (PSetStatus 3)) /\ no (ops_q4w 375000000000) (OPool [admin] P1 (PSetStatus 3)) /\
  yes (ops_q4w 500000000000) (OPool [admin] P1 (PSetStatus 4)) /\ no ops_pool (OPool [admin] P1 (PSetStatus 1)) /\ no ops_pool (OPool [admin] P1 (PSetStatus 5)) /\
  no ops_pool (OPool [admin] P1 (PSetStatus 6)) /\ no ops_pool (OPool [bob] P1 (PSetStatus 0)) /\ no ops_deploy (OPool [admin] P1 (PSetStatus 0)) /\
  yes ops_pool (OPool [] P1 PUpdateStatus) /\ no (ops_pool ++ [OPool [admin] P1 (PSetStatus 4)]) (OPool [] P1 PUpdateStatus) /\
  no ops_deploy (OPool [] P1 PUpdateStatus).
Proof. all_vm. Qed.
Definition emis_op (l : list (Z * Z * Z)) : Op := OPool [admin] P1 (PSetEmis (map (fun e => mkEmisMeta e.1.1 e.1.2 e.2) l)).
Example ex_C62_set_emissions :
  yes ops_pool (emis_op [(0, 0, 4000000); (1, 1, 6000000)]) /\ no ops_pool (emis_op [(0, 0, 4000000); (1, 1, 6000001)]) /\
  no ops_pool (emis_op [(0, 0, 4000000); (2, 0, 1000000)]) /\ no ops_pool (emis_op [(0, 2, 4000000)]) /\ yes ops_pool (emis_op []) /\
  yes ops_pool (emis_op [(0, 0, 4000000); (0, 0, 3000000)]) /\
  map_to_list (ps_pemis (pool (run sc0 (ops_pool ++ [emis_op [(0, 0, 4000000); (0, 0, 3000000)]])) P1)) = [(0, 3000000)] /\
  no ops_pool (OPool [bob] P1 (PSetEmis [])).
Proof. all_vm. Qed.
(** a contract holding more backstop tokens than the backstop can take over after 31 days *)
Definition BIG : Addr := 60.
Definition ops_big (n : Z) : list Op := ops_emit ++ [OExt [carol] (TTransfer LP carol BIG 750000000000); OExt [admin] (TTransfer LP admin BIG n)].
Definition ops_swap : list Op := ops_big 1 ++ [OExt [] (EQueueSwap BIG LP)].
Example ex_C62_swap :
  no (ops_big 0) (OExt [] (EQueueSwap BIG LP)) /\ yes (ops_big 1) (OExt [] (EQueueSwap BIG LP)) /\ no ops_swap (OExt [] (EQueueSwap BIG LP)) /\
  no ops_swap (OExt [] ECancelSwap) /\ yes (ops_swap ++ [OExt [BIG] (TTransfer LP BIG bob 1)]) (OExt [] ECancelSwap) /\ no (ops_big 1) (OExt [] ECancelSwap) /\
  no (ops_swap ++ [OTick 2678399 500000]) (OExt [] ESwap) /\ yes (ops_swap ++ [OTick 2678400 500000]) (OExt [] ESwap) /\
  no (ops_swap ++ [OTick 2678400 500000; OExt [BIG] (TTransfer LP BIG bob 1)]) (OExt [] ESwap) /\
  yes ops_swap (OExt [] EDistribute) /\ no [] (OExt [] EDistribute).
Proof. all_vm. Qed.
Example ex_C62_mint_fits : mint_fits (run sc0 (ops_swap ++ [OTick 2678400 500000])).
Proof.
  assert (let w := run sc0 (ops_swap ++ [OTick 2678400 500000]) in (due w <=? i128_max) &&
    (balance (tokens w) (em_blnd (emitter w)) (em_backstop (emitter w)) + due w <=? i128_max) = true) as H by (by vm_compute).
  apply andb_true_iff in H as [H1 H2]. split; by apply Z.leb_le.
Qed.
(** ten pools fill the reward zone; a pool with more deposits replaces one of them *)
Definition dp (i : Z) : Addr := dep_addr admin i.
Definition ops_zone (n : Z) : list Op := ops_deploy ++ [OExt [] BUpdTkn] ++
  flat_map (fun i => (if i <=? 2 then [] else [ODeploy [admin] admin i ORC 2000000 4]) ++
    [OExt [alice] (BDeposit alice (dp i) (90000000000 + i)); OExt [] (BAddReward (dp i) (dp i))]) [1; 2; 3; 4; 5; 6; 7; 8; 9; 10] ++
  [ODeploy [admin] admin 11 ORC 2000000 4; OExt [bob] (BDeposit bob (dp 11) n)].
Example ex_C62_add_reward :
  all_ok sc0 (ops_zone 90000000005) = true /\
  no (ops_zone 90000000005) (OExt [] (BAddReward (dp 11) (dp 5))) /\ yes (ops_zone 90000000006) (OExt [] (BAddReward (dp 11) (dp 5))) /\
  yes (ops_zone 90000000005) (OExt [] (BAddReward (dp 11) (dp 4))) /\
  no (ops_zone 90000000005) (OExt [] (BAddReward (dp 11) (-9))) /\ no (ops_zone 90000000005) (OExt [] (BAddReward (dp 3) (dp 2))) /\
  yes (ops_zone 90000000005 ++ [OTick 86400 17280]) (OExt [] (BAddReward (dp 11) (dp 4))) /\
  no (ops_zone 90000000005 ++ [OTick 86401 17280]) (OExt [] (BAddReward (dp 11) (dp 4))) /\
  no (ops_zone 1000) (OExt [] (BAddReward (dp 11) (dp 4))).
Proof. all_vm. Qed.
