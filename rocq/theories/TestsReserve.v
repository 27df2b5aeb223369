(** * The project's own unit tests replayed on the model (fidelity checks, not properties)

    pool/src/pool/interest.rs 118-380 and pool/src/pool/reserve.rs 240-673: the same
    inputs must give the same numbers. *)
From Verif Require Import Base Types PoolReserve.

(** testutils.rs 182-207 *)
Definition t_cfg := mkResConfig 0 7 7500000 7500000 7500000 9500000 100000 500000 5000000 15000000 20.
Definition t_data := mkResData 1000000000 1000000000 1000000000 1000000000 750000000 0 0.

(** interest.rs *)
Example test_calc_accrual_util_under_target : calc_accrual 500 t_cfg 6565656 1000000000 0 = Ok (1000000853, 999906566).
Proof. by vm_compute. Qed.
Example test_calc_accrual_util_over_target : calc_accrual 500 t_cfg 7979797 1000000000 0 = Ok (1000002853, 1000047979).
Proof. by vm_compute. Qed.
Example test_calc_accrual_util_over_95 : calc_accrual 500 t_cfg 9696969 1000000000 0 = Ok (1000018247, 1000219696).
Proof. by vm_compute. Qed.
Definition nm (r : res (Z * Z)) : res Z := let? '(_, m) := r in Ok m.
Example test_calc_ir_mod_over_limit : nm (calc_accrual 12345 t_cfg 9696969 9997000000 0) = Ok 10000000000.
Proof. by vm_compute. Qed.
Example test_calc_ir_mod_under_limit : nm (calc_accrual 50000 t_cfg 2020202 150000000 0) = Ok 100000000.
Proof. by vm_compute. Qed.
Example test_calc_accrual_rounds_up : calc_accrual 501 t_cfg 500000 100000000 500 = Ok (1000000001, 100000000).
Proof. by vm_compute. Qed.
Definition t_fixed := mkResConfig 0 7 7500000 7500000 7500000 9500000 2500000 0 0 0 20.
Example test_calc_accrual_fixed_rate :
  calc_accrual 500 t_fixed 0 1000000000 0 = Ok (1000003964, 999250000) /\
  calc_accrual 500 t_fixed 6565656 1000000000 0 = Ok (1000003964, 999906566) /\
  calc_accrual 500 t_fixed 7565656 1000000000 0 = Ok (1000003964, 1000006565) /\
  calc_accrual 500 t_fixed 9565656 1000000000 0 = Ok (1000003964, 1000206565).
Proof. by vm_compute. Qed.

(** reserve.rs *)
Definition t_load := t_data <| rd_d_rate := 1345678123 |> <| rd_b_rate := 1123456789 |> <| rd_d_supply := 650000000 |> <| rd_b_supply := 990000000 |>.
Example test_load_reserve : accrue 617280 2000000 t_cfg t_load =
  Ok (mkResData 1349657800 1125547124 1044981563 990000000 650000000 617280 517358).
Proof. by vm_compute. Qed.
Example test_load_reserve_zero_supply :
  accrue 617280 2000000 t_cfg (mkResData 0 0 1000000000 0 0 0 0) = Ok (mkResData 0 0 1000000000 0 0 617280 0).
Proof. by vm_compute. Qed.
Example test_load_reserve_zero_util :
  accrue 617280 2000000 t_cfg (t_data <| rd_d_rate := 0 |> <| rd_d_supply := 0 |>) = Ok (mkResData 0 1000000000 1000000000 1000000000 0 617280 0).
Proof. by vm_compute. Qed.
Example test_load_reserve_zero_bstop_rate : accrue 617280 0 t_cfg t_load =
  Ok (mkResData 1349657800 1126069708 1044981563 990000000 650000000 617280 0).
Proof. by vm_compute. Qed.
Example test_utilization : utilization t_load = Ok 7864353. Proof. by vm_compute. Qed.
Definition t_res (d : ResData) := mkReserve 0 0 7500000 7500000 9500000 10000000 d.
Example test_require_utilization_below_max_pass :
  require_util (t_res (t_data <| rd_b_supply := 990000000 |> <| rd_d_supply := 650000000 |>)) = Ok tt.
Proof. by vm_compute. Qed.
Example test_require_utilization_under_max_panic :
  require_util (t_res (t_data <| rd_b_supply := 1000000000 |> <| rd_d_supply := 950000100 |>)) = Err (PoolE 1207).
Proof. by vm_compute. Qed.
Definition t_d n := t_data <| rd_d_rate := n |> <| rd_b_supply := 990000000 |> <| rd_d_supply := 650000000 |>.
Definition t_b n := t_data <| rd_b_rate := n |> <| rd_b_supply := 990000000 |> <| rd_d_supply := 650000000 |>.
Example test_to_asset_from_d_token : asset_from_d (t_d 1321834961) 11234567 = Ok 14850244. Proof. by vm_compute. Qed.
Example test_to_asset_from_b_token : asset_from_b (t_b 1321834961) 11234567 = Ok 14850243. Proof. by vm_compute. Qed.
Example test_to_effective_asset_from_d_token :
  eff_asset_from_d (t_res (t_d 1321834961) <| r_l_factor := 11000000 |>) 11234567 = Ok 13500222. Proof. by vm_compute. Qed.
Example test_to_effective_asset_from_b_token :
  eff_asset_from_b (t_res (t_b 1321834961) <| r_c_factor := 8500000 |>) 11234567 = Ok 12622706. Proof. by vm_compute. Qed.
Example test_total_liabilities : total_liab (t_d 1823912692) = Ok 1185543250. Proof. by vm_compute. Qed.
Example test_total_supply : total_supply (t_b 1823912692) = Ok 1805673565. Proof. by vm_compute. Qed.
Example test_to_d_token_up : d_up (t_d 1321834961) 14850243 = Ok 11234567. Proof. by vm_compute. Qed.
Example test_to_d_token_down : d_down (t_d 1321834961) 14850243 = Ok 11234566. Proof. by vm_compute. Qed.
Example test_to_b_token_up : b_up (t_b 1321834961) 14850243 = Ok 11234567. Proof. by vm_compute. Qed.
Example test_to_b_token_down : b_down (t_b 1321834961) 14850243 = Ok 11234566. Proof. by vm_compute. Qed.
