(** * Unit tests of pool/src/pool/{config, status}.rs and pool/src/validator.rs replayed on the model
    (fidelity checks) *)
From Verif Require Import Base Types Token Emitter Factory Backstop PoolReserve PoolUser PoolHealth
  PoolAuction PoolEmis PoolAdmin PoolSubmit World TestsReserve TestsAuction TestsPool.

(** ** config.rs *)
Definition init0 rate mp p := p_initialize (c0 0 0) p 50 60 rate mp 70 41.
Example test_execute_initialize :
  (let? p := init0 1000000 2 fresh_pool in Ok (ps_admin p, ps_config p, ps_backstop p, ps_blnd p)) = Ok (50, mkPoolConfig 60 1000000 6 2, 70, 41).
Proof. by vm_compute. Qed.
Example test_execute_initialize_already_initialized :
  (let? p := init0 1000000 3 fresh_pool in p_initialize (c0 0 0) p 51 60 1000000 3 70 41) = Err (PoolE 3).
Proof. by vm_compute. Qed.
Example test_execute_initialize_bad_take_rate : init0 10000000 3 fresh_pool = Err (PoolE 1201).
Proof. by vm_compute. Qed.
Example test_execute_initialize_bad_max_positions : init0 1000000 1 fresh_pool = Err (PoolE 1201).
Proof. by vm_compute. Qed.
Definition cf_pool st := t_pool [] <| ps_admin := 50 |> <| ps_config := mkPoolConfig 60 1000000 st 2 |>.
Example test_execute_update_pool : (let? p := p_update_pool (c0 0 0) (cf_pool 0) 2000000 4 in Ok (ps_config p)) = Ok (mkPoolConfig 60 2000000 0 4).
Proof. by vm_compute. Qed.
Example test_execute_update_pool_validates : p_update_pool (c0 0 0) (cf_pool 0) 10000000 4 = Err (PoolE 1200).
Proof. by vm_compute. Qed.
Definition meta := mkResConfig 0 7 7500000 7500000 5000000 9500000 100000 500000 5000000 15000000 100.
Definition queue st md := let? p := p_queue_reserve (c0 777 0) (cf_pool st) 30 md in Ok (ps_queue p !! 30).
Example test_queue_set_reserve_status_6 : queue 6 meta = Ok (Some (mkQueuedRes meta 777)).
Proof. by vm_compute. Qed.
Example test_queue_set_reserve : queue 0 meta = Ok (Some (mkQueuedRes meta (777 + 604800))).
Proof. by vm_compute. Qed.
Example test_queue_set_reserve_duplicate :
  (let? p := p_queue_reserve (c0 777 0) (cf_pool 6) 30 meta in p_queue_reserve (c0 777 0) p 30 meta) = Err (PoolE 1200).
Proof. by vm_compute. Qed.
Example test_queue_set_reserve_validates_metadata : queue 0 (meta <| rc_l_factor := 17500000 |> <| rc_util := 10000000 |>) = Err (PoolE 1202).
Proof. by vm_compute. Qed.
Definition queued md unlock p := p <| ps_queue := <[30 := mkQueuedRes md unlock]> (ps_queue p) |>.
Example test_execute_cancel_queued_reserve_initialization :
  (let? p := p_cancel_reserve (c0 777 0) (queued meta 777 (cf_pool 0)) 30 in Ok (ps_queue p !! 30)) = Ok None.
Proof. by vm_compute. Qed.
Example test_execute_set_reserve_first_reserve :
  (let? '(_, p) := p_set_reserve (c0 777 0) (queued meta 777 (cf_pool 0)) 30 in Ok (ps_rcfg p !! 30, ps_list p)) = Ok (Some meta, [30]).
Proof. by vm_compute. Qed.
Example test_execute_set_reserve_requires_block_passed : p_set_reserve (c0 777 0) (queued meta 778 (cf_pool 0)) 30 = Err (PoolE 1203).
Proof. by vm_compute. Qed.
(** an existing reserve whose parameters are updated at time 10000 *)
Definition old_pool ir := t_pool [(t_cfg, t_data <| rd_ir_mod := ir |>)] <| ps_config := mkPoolConfig 60 1000000 0 2 |>.
Definition upd ir md :=
  let? '(i, p) := p_set_reserve (c0 10000 100) (queued md 10000 (old_pool ir)) 30 in
  let? d := unwrap (ps_rdata p !! 30) in
  Ok (i, ps_rcfg p !! 30, (1000000000 <? rd_d_rate d) && (0 <? rd_credit d), rd_last_time d, rd_ir_mod d =? 1000000000).
Definition up_c := t_cfg <| rc_c_factor := 7500001 |> <| rc_l_factor := 7500001 |> <| rc_max_util := 9500001 |> <| rc_reactivity := 21 |>.
Example test_execute_set_reserve_update : upd 1001000000 (up_c <| rc_index := 123 |>) = Ok (0, Some up_c, true, 10000, false).
Proof. by vm_compute. Qed.
Example test_execute_set_reserve_update_resets_ir_mod :
  upd 1100000000 (t_cfg <| rc_r_base := 100001 |>) = Ok (0, Some (t_cfg <| rc_r_base := 100001 |>), true, 10000, true).
Proof. by vm_compute. Qed.
Example test_execute_set_reserve_validates_decimals_stay_same :
  upd 1000000000 (mkResConfig 99 8 7500000 7500000 777777 9500000 100000 500000 5000000 15000000 105) = Err (PoolE 1202).
Proof. by vm_compute. Qed.
Example test_initialize_reserve_sets_index :
  (let? '(_, p) := initialize_reserve 0 (cf_pool 0) 30 meta in let? '(_, p) := initialize_reserve 0 p 31 meta in
   Ok (ps_rcfg p !! 30, ps_rcfg p !! 31)) = Ok (Some meta, Some (meta <| rc_index := 1 |>)).
Proof. by vm_compute. Qed.
Definition vm := mkResConfig 0 18 7500000 7500000 5000000 9500000 1000 500000 5000000 15000000 100.
Example test_validate_reserve_metadata : valid_metadata vm = true.
Proof. by vm_compute. Qed.
Example test_validate_reserve_metadata_validates_decimals : valid_metadata (vm <| rc_decimals := 19 |>) = false.
Proof. by vm_compute. Qed.
Example test_validate_reserve_metadata_validates_c_factor : valid_metadata (vm <| rc_c_factor := 10000001 |>) = false.
Proof. by vm_compute. Qed.
Example test_validate_reserve_metadata_validates_l_factor : valid_metadata (vm <| rc_l_factor := 10000001 |>) = false.
Proof. by vm_compute. Qed.
Example test_validate_reserve_metadata_validates_util : valid_metadata (vm <| rc_util := 10000000 |>) = false.
Proof. by vm_compute. Qed.
Example test_validate_reserve_metadata_validates_max_util : valid_metadata (vm <| rc_max_util := 10000001 |>) = false.
Proof. by vm_compute. Qed.
Example test_validate_reserve_metadata_validates_r_base_too_high : valid_metadata (vm <| rc_r_base := 10000000 |>) = false.
Proof. by vm_compute. Qed.
Example test_validate_reserve_metadata_validates_r_base_too_low : valid_metadata (vm <| rc_r_base := 999 |>) = false.
Proof. by vm_compute. Qed.
Example test_validate_reserve_metadata_validates_r_order : valid_metadata (vm <| rc_r_base := 100 |> <| rc_r_one := 5000001 |>) = false.
Proof. by vm_compute. Qed.
Example test_validate_reserve_metadata_validates_reactivity : valid_metadata (vm <| rc_r_base := 100000 |> <| rc_reactivity := 1001 |>) = false.
Proof. by vm_compute. Qed.

(** ** status.rs: [tokens] LP tokens in the backstop (10 BLND and 0.25 USDC each), [q] of them queued *)
Definition st_x tokens q : Ext :=
  set_pb (t_ext (t_tok [((40, bs_addr), tokens)]) (t_bs tokens) (t_orc 7 [])) (-2) (mkPoolBal tokens tokens q).
Definition set_st st tokens q new := let? p := p_set_status (c0 0 0) (-2) (cf_pool st) (st_x tokens q) new in Ok (pc_status (ps_config p)).
Definition upd_st st tokens q := let? '(s, p) := p_update_status (-2) (cf_pool st) (st_x tokens q) in Ok (s, pc_status (ps_config p)).
Notation k50 := 500000000000. Notation k40 := 400000000000.
Example test_set_pool_status_active : set_st 1 k50 0 0 = Ok 0.
Proof. by vm_compute. Qed.
Example test_set_pool_status_active_blocks_without_backstop_minimum : set_st 1 k40 0 0 = Err (PoolE 1204).
Proof. by vm_compute. Qed.
Example test_set_pool_status_active_blocks_with_too_high_q4w : set_st 2 k50 300000000000 0 = Err (PoolE 1204).
Proof. by vm_compute. Qed.
Example test_set_pool_status_on_ice : set_st 1 k50 0 2 = Ok 2.
Proof. by vm_compute. Qed.
Example test_set_pool_status_admin_on_ice_blocks_with_too_high_q4w : set_st 5 k50 k40 2 = Err (PoolE 1204).
Proof. by vm_compute. Qed.
Example test_set_pool_status_backstop_on_ice_blocks_with_too_high_q4w : set_st 6 k50 k40 3 = Err (PoolE 1204).
Proof. by vm_compute. Qed.
Example test_set_pool_status_frozen : set_st 1 k50 0 4 = Ok 4.
Proof. by vm_compute. Qed.
Example test_set_non_admin_pool_status_panics : set_st 2 k50 0 1 = Err (PoolE 1200).
Proof. by vm_compute. Qed.
Example test_update_pool_status_active : upd_st 3 k50 0 = Ok (1, 1).
Proof. by vm_compute. Qed.
Example test_update_pool_status_admin_set_no_changes : upd_st 0 k50 0 = Ok (0, 0).
Proof. by vm_compute. Qed.
Example test_update_pool_status_on_ice_tokens : upd_st 1 k40 0 = Ok (3, 3).
Proof. by vm_compute. Qed.
Example test_update_pool_status_on_ice_30_q4w : upd_st 1 k50 150000000000 = Ok (3, 3).
Proof. by vm_compute. Qed.
Example test_update_pool_status_on_ice_30_q4w_admin_active : upd_st 0 k50 150000000000 = Ok (0, 0).
Proof. by vm_compute. Qed.
Example test_update_pool_status_on_ice_50_q4w_admin_active : upd_st 0 k50 250000000000 = Ok (3, 3).
Proof. by vm_compute. Qed.
Example test_update_pool_status_frozen : upd_st 1 k50 300000000000 = Ok (5, 5).
Proof. by vm_compute. Qed.
Example test_update_pool_status_frozen_admin_on_ice : upd_st 2 k50 300000000000 = Ok (2, 2).
Proof. by vm_compute. Qed.
Example test_update_pool_status_frozen_75_q4w : upd_st 2 k50 k40 = Ok (5, 5).
Proof. by vm_compute. Qed.
Example test_update_pool_status_admin_frozen : upd_st 4 k50 0 = Err (PoolE 1204).
Proof. by vm_compute. Qed.
Example test_update_pool_status_setup : upd_st 6 k50 0 = Err (PoolE 1204).
Proof. by vm_compute. Qed.
Example test_admin_update_pool_status_unfreeze : set_st 5 k50 125000000000 0 = Ok 0.
Proof. by vm_compute. Qed.
Example test_calc_pool_backstop_threshold : threshold (mkPoolData 200000000000 0 3000000000000 250000000000) = 6328125.
Proof. by vm_compute. Qed.
Example test_calc_pool_backstop_threshold_10_percent : threshold (mkPoolData 10000000000 0 300000000000 39750000000) = 100.
Proof. by vm_compute. Qed.
Example test_calc_pool_backstop_threshold_too_small : threshold (mkPoolData 5000000000 0 50000000000 10000000000) = 0.
Proof. by vm_compute. Qed.
Example test_calc_pool_backstop_threshold_over : threshold (mkPoolData 150000000000 0 3646430000000 181000000000) = 10000002.
Proof. by vm_compute. Qed.
Example test_calc_pool_backstop_threshold_saturates : threshold (mkPoolData 9999990000000 0 500000000000000 100000000000000) = 531691198313.
Proof. by vm_compute. Qed.
Example test_calc_pool_backstop_threshold_10pct : threshold (mkPoolData 9999990000000 0 200000000000 200000000000) = 100.
Proof. by vm_compute. Qed.
Example test_calc_pool_backstop_threshold_5pct : threshold (mkPoolData 9999990000000 0 100000000000 100000000000) = 3.
Proof. by vm_compute. Qed.
