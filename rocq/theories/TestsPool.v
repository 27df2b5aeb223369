(** * Unit tests of pool/src/pool/{actions,submit,health_factor,bad_debt,pool,user}.rs replayed on the model (fidelity checks)

    The names are those of the tests in the code; inputs and expected values are copied from them. *)
From Verif Require Import Base Types Token Emitter Factory Backstop PoolReserve PoolUser PoolHealth
  PoolAuction PoolSubmit PoolAdmin World TestsReserve TestsAuction.

(** ** actions.rs *)
Definition cfg_to (bstop status maxp : Z) (p : PoolSt) : PoolSt := p <| ps_config := mkPoolConfig 20 bstop status maxp |>.
Definition pos3 (l c s : list (Z * Z)) : Positions := mkPositions (m l) (m c) (m s).
Definition a_pool (bstop : Z) (pos : Positions) : PoolSt := set_pos (cfg_to bstop 0 2 (t_pool [(t_cfg, t_data)])) 10 pos.
Definition show_l (r : res Loop) :=
  let? s := r in
  let? '(rv, _) := load_reserve 600 (lo_p s) (lo_ch s) 30 false in
  Ok (lo_check s, entries (ac_spender (lo_ac s)), entries (ac_pool (lo_ac s)), show_p (lo_pos s), rd_b_supply (r_data rv), rd_d_supply (r_data rv)).
Definition acts (p : PoolSt) (l : list (Z * Z)) := show_l (build_actions (c0 600 1234) (-2) p (x0 7 []) (pool_load p) 10 (map (fun e => mkReq e.1 30 e.2) l)).
Example test_build_actions_from_request_supply :
  acts (a_pool 1000000 no_positions) [(0, 101234567)] = Ok (false, [(30, 101234567)], [], ([], [], [(0, 101234488)]), 1000000000 + 101234488, 750000000).
Proof. by vm_compute. Qed.
Example test_build_actions_from_request_withdraw :
  acts (a_pool 2000000 (pos3 [] [] [(0, 200000000)])) [(1, 101234567)] = Ok (false, [], [(30, 101234567)], ([], [], [(0, 98765502)]), 1000000000 - (200000000 - 98765502), 750000000).
Proof. by vm_compute. Qed.
Example test_build_actions_from_request_withdraw_over_balance :
  acts (a_pool 2000000 (pos3 [] [] [(0, 200000000)])) [(1, 210000000)] = Ok (false, [], [(30, 200000137)], ([], [], []), 1000000000 - 200000000, 750000000).
Proof. by vm_compute. Qed.
Example test_build_actions_from_request_supply_collateral :
  acts (a_pool 1000000 no_positions) [(2, 101234567)] = Ok (false, [(30, 101234567)], [], ([(0, 101234488)], [], []), 1000000000 + 101234488, 750000000).
Proof. by vm_compute. Qed.
Example test_build_actions_from_request_withdraw_collateral :
  acts (a_pool 2000000 (pos3 [] [(0, 200000000)] [])) [(3, 101234567)] = Ok (true, [], [(30, 101234567)], ([(0, 98765502)], [], []), 1000000000 - (200000000 - 98765502), 750000000).
Proof. by vm_compute. Qed.
Example test_build_actions_from_request_withdraw_collateral_over_balance :
  acts (a_pool 2000000 (pos3 [] [(0, 200000000)] [])) [(3, 210000000)] = Ok (true, [], [(30, 200000137)], ([], [], []), 1000000000 - 200000000, 750000000).
Proof. by vm_compute. Qed.
Example test_build_actions_from_request_borrow :
  acts (a_pool 2000000 no_positions) [(4, 101234567)] = Ok (true, [], [(30, 101234567)], ([], [(0, 101234452)], []), 1000000000, 750000000 + 101234452).
Proof. by vm_compute. Qed.
Example test_build_actions_from_request_repay :
  acts (a_pool 2000000 (pos3 [(0, 200000000)] [] [])) [(5, 101234567)] = Ok (false, [(30, 101234567)], [], ([], [(0, 200000000 - 101234451)], []), 1000000000, 750000000 - 101234451).
Proof. by vm_compute. Qed.
Example test_build_actions_from_request_repay_over_balance :
  acts (a_pool 2000000 (pos3 [(0, 200000000)] [] [])) [(5, 210000000)] = Ok (false, [(30, 210000000)], [(30, 9999771)], ([], [], []), 1000000000, 750000000 - 200000000).
Proof. by vm_compute. Qed.
Example test_aggregating_actions :
  acts (cfg_to 2000000 0 2 (t_pool [(t_cfg, t_data <| rd_last_time := 600 |>)])) [(0, 100000000); (1, 50000000); (2, 100000000); (3, 50000000); (4, 200000000); (5, 210000000)]
  = Ok (true, [(30, 410000000)], [(30, 50000000 + 50000000 + 200000000 + 10000000)], ([(0, 50000000)], [], [(0, 50000000)]), 1000000000 + 100000000, 750000000).
Proof. by vm_compute. Qed.
Definition with_auct (t : Z) (u : Addr) (a : Auction) (p : PoolSt) : PoolSt := p <| ps_auct := <[(t, u) := a]> (ps_auct p) |>.
Definition show_auct (t : Z) (u : Addr) (r : res Loop) :=
  let? s := r in
  Ok (lo_check s, entries (ac_spender (lo_ac s)), entries (ac_pool (lo_ac s)),
      match ps_auct (lo_p s) !! (t, u) with Some a => Some (entries (au_bid a), entries (au_lot a), au_block a) | None => None end).
Example test_fill_user_liquidation :
  let p := with_auct 0 10 (mkAuction (m [(32, 12375000)]) (m [(30, 305595329); (31, 15395739)]) 176) liq_pool in
  show_auct 0 10 (build_actions (c0 12345 376) (-2) p (x0 7 []) (pool_load p) 11 [mkReq 6 10 50])
  = Ok (true, [], [], Some ([(32, 6187500)], [(30, 152797665); (31, 7697870)], 176)).
Proof. by vm_compute. Qed.
Example test_fill_bad_debt_auction :
  let p := with_auct 1 bs_addr (mkAuction (m [(30, 100000000); (31, 25000000)]) (m [(40, 952000000)]) 51) (cfg_to 1000000 0 2 (with_pos bs_addr [] [(0, 100000000); (1, 25000000)]
    (t_pool [(rcfg 0 7 8500000 9000000, rdat 1000000000 1100000000 12345); (rcfg 1 7 7500000 7500000, rdat 1000000000 1200000000 12345)]))) in
  show_auct 1 bs_addr (build_actions (c0 12345 251) (-2) p (xb 952000000) (pool_load p) 11 [mkReq 7 bs_addr 100]) = Ok (true, [], [], None).
Proof. by vm_compute. Qed.
Example test_fill_interest_auction :
  let d := rdat 1000000000 1100000000 12345 in
  let p := with_auct 2 bs_addr (mkAuction (m [(40, 1000000000)]) (m [(30, 1000000000); (31, 250000000)]) 51)
    (cfg_to 1000000 0 2 (t_pool [(t_cfg, d); (rcfg 1 7 7500000 7500000, d); (rcfg 2 7 7500000 7500000, d)])) in
  let r := build_actions (c0 12345 301) (-2) p
     (t_ext (t_tok [((40, 10), 1000000000); ((40, bs_addr), 500000000); ((30, -2), 10000000000); ((31, -2), 10000000000)]) (t_bs 500000000) (t_orc 7 []))
     (pool_load p) 10 [mkReq 8 bs_addr 100] in
  show_auct 2 bs_addr r = Ok (false, [], [], None) /\
  (let? s := r in Ok (map (fun e => balance (x_tok (lo_x s)) e.1 e.2) [(40, 10); (40, bs_addr); (30, 10); (31, 10)])) = Ok [250000000; 500000000 + 750000000; 1000000000; 250000000].
Proof. split; by vm_compute. Qed.
Example test_delete_liquidation_auction :
  let p := with_auct 0 10 (mkAuction (m [(30, 9520000000)]) (m [(30, 1000000000); (31, 250000000)]) 51) (cfg_to 1000000 0 2 (t_pool [])) in
  show_auct 0 10 (build_actions (c0 12345 251) (-2) p (x0 7 []) (pool_load p) 10 [mkReq 9 55 0]) = Ok (true, [], [], None).
Proof. by vm_compute. Qed.
Example test_actions_requires_positions_under_max_with_decrease :
  let p := set_pos (cfg_to 2000000 0 2 (t_pool [(t_cfg, t_data); (rcfg 1 7 7500000 7500000, t_data)])) 10 (pos3 [(0, 50000000); (1, 10000000)] [(0, 200000000); (1, 10)] []) in
  (let? s := build_actions (c0 600 1234) (-2) p (x0 7 []) (pool_load p) 10 [mkReq 3 31 20] in Ok (eff_count (lo_pos s))) = Ok 3.
Proof. by vm_compute. Qed.
Example test_actions_requires_positions_under_max :
  acts (cfg_to 2000000 0 1 (a_pool 0 (pos3 [] [(0, 200000000)] []))) [(4, 10000000)] = Err (PoolE 1208).
Proof. by vm_compute. Qed.

(** ** submit.rs: samwise 10, frodo 11, merry 12; the pool holds 25 of each underlying (create_reserve mints supply minus liabilities) *)
Definition s_pool : PoolSt := cfg_to 1000000 0 2 (t_pool [(t_cfg, t_data); (rcfg 1 7 7500000 7500000, t_data)]).
Definition s_x (orc : Oracle) : Ext := t_ext (t_tok [((30, 11), 160000000); ((31, 11), 100000000); ((30, -2), 250000000); ((31, -2), 250000000)]) (t_bs 0) orc.
Definition submit (orc : Oracle) (from spender to : Addr) (qs : list (Z * Z * Z)) :=
  let? '(pos, px) := p_submit (c0 600 1234) (-2) (mkPX s_pool (s_x orc)) from spender to (map (fun e => mkReq e.1.1 e.1.2 e.2) qs) in
  Ok (show_p pos, show_p (get_pos (px_p px) from), map (fun e => balance (x_tok (px_x px)) e.1 e.2) [(30, -2); (31, -2); (30, 11); (31, 11); (31, 12)]).
Example test_submit : submit (t_orc 7 [10000000; 50000000]) 10 11 12 [(2, 30, 150000000); (4, 31, 15000000)]
  = Ok (([(0, 149999884)], [(1, 14999983)], []), ([(0, 149999884)], [(1, 14999983)], []), [250000000 + 150000000; 250000000 - 15000000; 10000000; 100000000; 15000000]).
Proof. by vm_compute. Qed.
Example test_submit_no_liabilities_does_not_load_oracle :
  submit (mkOracle ∅ ∅) 10 11 11 [(2, 30, 150000000); (4, 31, 15000000); (5, 31, 15000001)]
  = Ok (([(0, 149999884)], [], []), ([(0, 149999884)], [], []), [250000000 + 150000000; 250000000 + 1; 10000000; 100000000 - 1; 0]).
Proof. by vm_compute. Qed.
Example test_submit_requires_healhty : submit (t_orc 7 [10000000; 50000000]) 10 11 12 [(2, 30, 150000000); (4, 31, 17500000)] = Err (PoolE 1205).
Proof. by vm_compute. Qed.
Example test_submit_from_is_not_self : submit (t_orc 7 [10000000; 50000000]) (-2) 11 11 [(2, 30, 150000000)] = Err (PoolE 1200).
Proof. by vm_compute. Qed.
Example test_submit_spender_is_not_self : submit (t_orc 7 [10000000; 50000000]) 11 (-2) 11 [(2, 30, 150000000)] = Err (PoolE 1200).
Proof. by vm_compute. Qed.
Example test_submit_to_is_not_self : submit (t_orc 7 [10000000; 50000000]) 11 11 (-2) [(2, 30, 150000000)] = Err (PoolE 1200).
Proof. by vm_compute. Qed.

(** ** health_factor.rs *)
Definition h_pool : PoolSt := cfg_to 2000000 0 5 (t_pool [(t_cfg, t_data);
  (rcfg 1 9 8500000 8000000, mkResData 1150000000 1100000000 1000000000 100000000000 70000000000 0 0);
  (rcfg 2 6 7500000 7500000, mkResData 1001200000 1001100000 1000000000 10000000 5000000 0 0)]).
Example test_calculate_from_positions :
  (let? '(d, _) := position_data 0 h_pool (x0 7 [10000000; 25000000; 10000000000]) (pool_load h_pool) (pos3 [(0, 15000000); (1, 50987654321)] [(0, 1001234567); (2, 250000)] [(1, 120987654321)]) in Ok d)
  = Ok (mkPosData 2627985925 3503984567 1852368828 1480895062 10000000).
Proof. by vm_compute. Qed.
Example test_as_health_factor_rounds_floor : as_hf (mkPosData 91234567 0 91000000 0 10000000) = Ok 10025776. Proof. by vm_compute. Qed.
Example test_is_hf_under : is_hf_under (mkPosData 91234567 120000000 91233333 100000000 10000000) 10000100 = Ok false. Proof. by vm_compute. Qed.
Example test_is_hf_under_odd_scalar : is_hf_under (mkPosData 912345 1200000 912333 1000000 100000) 10000100 = Ok false. Proof. by vm_compute. Qed.
Example test_is_hf_under_no_liabilites : is_hf_under (mkPosData 91234567 120000000 0 0 10000000) 10000100 = Ok false. Proof. by vm_compute. Qed.
Example test_is_hf_under_true : is_hf_under (mkPosData 91234567 120000000 91234567 100000000 10000000) 10000100 = Ok true. Proof. by vm_compute. Qed.
Example test_is_hf_over : is_hf_over (mkPosData 91234567 120000000 91233333 100000000 10000000) 11000000 = Ok false. Proof. by vm_compute. Qed.
Example test_is_hf_over_odd_scalar : is_hf_over (mkPosData 91234567000 120000000000 91233333000 100000000000 10000000000) 11000000 = Ok false. Proof. by vm_compute. Qed.
Example test_is_hf_over_no_liabilites : is_hf_over (mkPosData 91234567 120000000 0 0 10000000) 10000100 = Ok true. Proof. by vm_compute. Qed.
Example test_is_hf_over_true : is_hf_over (mkPosData 191234567 220000000 91234567 100000000 10000000) 10000100 = Ok true. Proof. by vm_compute. Qed.

(** ** bad_debt.rs *)
Definition bdt (pos : Positions) (u : Addr) :=
  let? p := p_bad_debt (c0 600 123) (set_pos s_pool 10 pos) u in Ok (show_p (get_pos p 10), show_p (get_pos p bs_addr)).
Example test_transfer_bad_debt_happy_path : bdt (pos3 [(0, 240000000); (1, 250000000)] [] []) 10 = Ok (([], [], []), ([], [(0, 240000000); (1, 250000000)], [])).
Proof. by vm_compute. Qed.
Example test_transfer_bad_debt_with_collateral_panics : bdt (pos3 [(0, 240000000); (1, 250000000)] [(0, 1)] []) 10 = Err (PoolE 1200).
Proof. by vm_compute. Qed.
Example test_transfer_bad_debt_without_liabilities_panics : bdt no_positions 10 = Err (PoolE 1200).
Proof. by vm_compute. Qed.
Example test_transfer_bad_debt_with_backstop_panics : bdt (pos3 [(0, 240000000); (1, 250000000)] [] []) bs_addr = Err (PoolE 1200).
Proof. by vm_compute. Qed.

(** ** user.rs *)
Definition rv (i : Z) : Reserve := mkReserve (30 + i) i 7500000 7500000 9500000 10000000 t_data.
Definition UserOp := Z -> PoolSt -> Addr -> Positions -> Reserve -> Z -> res (PoolSt * Positions * Reserve).
(** operations on the reserves 0 and 1; shows the positions and the d and b supplies after each *)
Fixpoint user_ops (now : Z) (p : PoolSt) (pos : Positions) (r0 r1 : Reserve) (l : list (UserOp * Z * Z)) :=
  match l with
  | [] => Ok []
  | (f, i, n) :: l =>
      let? '(p, pos, r) := (f : UserOp) now p 10 pos (if i =? 0 then r0 else r1) n in
      let r0 := if i =? 0 then r else r0 in let r1 := if i =? 0 then r1 else r in
      let? t := user_ops now p pos r0 r1 l in
      Ok ((show_p pos, rd_d_supply (r_data r0), rd_b_supply (r_data r0), rd_d_supply (r_data r1), rd_b_supply (r_data r1)) :: t)
  end.
Definition uops := user_ops 0 (t_pool []) no_positions (rv 0) (rv 1).
Example test_load_and_store : show_p (get_pos (set_pos (t_pool []) 10 (pos3 [] [(0, 10000)] [])) 10) = ([(0, 10000)], [], []). Proof. by vm_compute. Qed.
Example test_liabilities :
  uops [(add_liabilities, 0, 123); (add_liabilities, 1, 456); (remove_liabilities, 1, 100); (remove_liabilities, 1, 356); (remove_liabilities, 0, 123)] =
  Ok [(([], [(0, 123)], []), 750000000 + 123, 1000000000, 750000000, 1000000000); (([], [(0, 123); (1, 456)], []), 750000000 + 123, 1000000000, 750000000 + 456, 1000000000);
      (([], [(0, 123); (1, 356)], []), 750000000 + 123, 1000000000, 750000000 + 356, 1000000000); (([], [(0, 123)], []), 750000000 + 123, 1000000000, 750000000, 1000000000);
      (([], [], []), 750000000, 1000000000, 750000000, 1000000000)].
Proof. by vm_compute. Qed.
Example test_add_liabilities_zero_mint : uops [(add_liabilities, 0, 0)] = Err (PoolE 1218). Proof. by vm_compute. Qed.
Example test_remove_liabilities_zero_burn : uops [(add_liabilities, 0, 123); (remove_liabilities, 0, 0)] = Err (PoolE 1219). Proof. by vm_compute. Qed.
Example test_remove_liabilities_over_balance_panics : uops [(add_liabilities, 0, 123); (remove_liabilities, 0, 124)] = Err (PoolE 8). Proof. by vm_compute. Qed.
Example test_collateral :
  uops [(add_collateral, 0, 123); (add_collateral, 1, 456); (remove_collateral, 1, 100); (remove_collateral, 1, 356)] =
  Ok [(([(0, 123)], [], []), 750000000, 1000000000 + 123, 750000000, 1000000000); (([(0, 123); (1, 456)], [], []), 750000000, 1000000000 + 123, 750000000, 1000000000 + 456);
      (([(0, 123); (1, 356)], [], []), 750000000, 1000000000 + 123, 750000000, 1000000000 + 356); (([(0, 123)], [], []), 750000000, 1000000000 + 123, 750000000, 1000000000)].
Proof. by vm_compute. Qed.
Example test_add_collateral_zero_mint : uops [(add_collateral, 0, 0)] = Err (PoolE 1216). Proof. by vm_compute. Qed.
Example test_remove_collateral_zero_burn : uops [(add_collateral, 0, 123); (remove_collateral, 0, 0)] = Err (PoolE 1217). Proof. by vm_compute. Qed.
Example test_remove_collateral_over_balance_panics : uops [(add_collateral, 0, 123); (remove_collateral, 0, 124)] = Err (PoolE 8). Proof. by vm_compute. Qed.
Example test_supply :
  uops [(add_supply, 0, 123); (add_supply, 1, 456); (remove_supply, 1, 100); (remove_supply, 1, 356)] =
  Ok [(([], [], [(0, 123)]), 750000000, 1000000000 + 123, 750000000, 1000000000); (([], [], [(0, 123); (1, 456)]), 750000000, 1000000000 + 123, 750000000, 1000000000 + 456);
      (([], [], [(0, 123); (1, 356)]), 750000000, 1000000000 + 123, 750000000, 1000000000 + 356); (([], [], [(0, 123)]), 750000000, 1000000000 + 123, 750000000, 1000000000)].
Proof. by vm_compute. Qed.
Example test_add_supply_zero_mint : uops [(add_supply, 0, 0)] = Err (PoolE 1216). Proof. by vm_compute. Qed.
Example test_remove_supply_zero_burn : uops [(add_supply, 0, 123); (remove_supply, 0, 0)] = Err (PoolE 1217). Proof. by vm_compute. Qed.
Example test_remove_supply_over_balance_panics : uops [(add_supply, 0, 123); (remove_supply, 0, 124)] = Err (PoolE 8). Proof. by vm_compute. Qed.
Example test_total_supply :
  (let? '(p, pos, _) := add_supply 0 (t_pool []) 10 no_positions (rv 0) 123 in let? '(p, pos, r) := add_supply 0 p 10 pos (rv 1) 456 in let? '(p, pos, _) := add_collateral 0 p 10 pos r 789 in
   let? a := get_total pos 0 in let? b := get_total pos 1 in Ok (a, b)) = Ok (123, 456 + 789).
Proof. by vm_compute. Qed.
(** emissions accrue before the position changes *)
Definition emis_op (f : UserOp) (id : Z) (pos : Positions) :=
  let p := set_uemis (set_edata (set_ecfg (t_pool []) id (mkEmisConfig 20000000 1000000)) id (mkEmisData 1000 10000000)) 10 id (mkUserEmis 900 0) in
  let? '(p, pos, r) := f 10001000 p 10 pos (rv 0) 123 in
  Ok (show_p pos, rd_d_supply (r_data r), rd_b_supply (r_data r), match ps_edata p !! id with Some d => Some (ed_index d, ed_last d) | None => None end,
      match ps_uemis p !! (10, id) with Some u => ue_accrued u | None => -1 end).
Definition new_index (s : Z) : Z := 1000 + 1000 * 1000000 * 10000000 / s.
Definition accrued (s : Z) : Z := (new_index s - 900) * 1000 / 10000000.
Example test_add_liabilities_accrues_emissions : emis_op add_liabilities 0 (pos3 [(0, 1000)] [] []) =
  Ok (([], [(0, 1123)], []), 750000000 + 123, 1000000000, Some (new_index 750000000, 10001000), accrued 750000000). Proof. by vm_compute. Qed.
Example test_remove_liabilities_accrues_emissions : emis_op remove_liabilities 0 (pos3 [(0, 1000)] [] []) =
  Ok (([], [(0, 877)], []), 750000000 - 123, 1000000000, Some (new_index 750000000, 10001000), accrued 750000000). Proof. by vm_compute. Qed.
Example test_add_collateral_accrues_emissions : emis_op add_collateral 1 (pos3 [] [(0, 700)] [(0, 300)]) =
  Ok (([(0, 823)], [], [(0, 300)]), 750000000, 1000000000 + 123, Some (new_index 1000000000, 10001000), accrued 1000000000). Proof. by vm_compute. Qed.
Example test_remove_collateral_accrues_emissions : emis_op remove_collateral 1 (pos3 [] [(0, 700)] [(0, 300)]) =
  Ok (([(0, 577)], [], [(0, 300)]), 750000000, 1000000000 - 123, Some (new_index 1000000000, 10001000), accrued 1000000000). Proof. by vm_compute. Qed.
Example test_add_supply_accrues_emissions : emis_op add_supply 1 (pos3 [] [(0, 700)] [(0, 300)]) =
  Ok (([(0, 700)], [], [(0, 423)]), 750000000, 1000000000 + 123, Some (new_index 1000000000, 10001000), accrued 1000000000). Proof. by vm_compute. Qed.
Example test_remove_supply_accrues_emissions : emis_op remove_supply 1 (pos3 [] [(0, 700)] [(0, 300)]) =
  Ok (([(0, 700)], [], [(0, 177)]), 750000000, 1000000000 - 123, Some (new_index 1000000000, 10001000), accrued 1000000000). Proof. by vm_compute. Qed.

(** ** pool.rs *)
Definition zero_data := mkResData 0 0 0 0 0 0 0.
Definition wipe (a : Addr) (p : PoolSt) : PoolSt := p <| ps_rdata := <[a := zero_data]> (ps_rdata p) |>.
Definition drate (p : PoolSt) (a : Addr) : Z := match ps_rdata p !! a with Some d => rd_d_rate d | None => -1 end.
Definition set_dr (r : Reserve) (n : Z) : Reserve := r <| r_data := r_data r <| rd_d_rate := n |> |>.
Example test_reserve_cache :
  let p := cfg_to 2000000 0 2 (t_pool [(t_cfg, t_data)]) in
  (let? '(r, ch) := load_reserve 617280 p (pool_load p) 30 true in
   let ch := cache_reserve ch r in
   let p := wipe 30 p in
   let? '(r', ch) := load_reserve 617280 p ch 30 true in
   let? p := store_cached p ch in Ok (1000000000 <? rd_d_rate (r_data r), rd_d_rate (r_data r') - rd_d_rate (r_data r), drate p 30 - rd_d_rate (r_data r))) = Ok (true, 0, 0).
Proof. by vm_compute. Qed.
Definition cache_pool := cfg_to 2000000 0 2 (t_pool [(t_cfg, t_data); (rcfg 1 7 7500000 7500000, t_data <| rd_d_rate := 1001000000 |>); (rcfg 2 7 7500000 7500000, t_data <| rd_d_rate := 1002000000 |>)]).
Example test_reserve_cache_stores_only_marked :
  let p := cache_pool in
  (let? '(r0, ch) := load_reserve 617280 p (pool_load p) 30 false in
   let? '(r1, ch) := load_reserve 617280 p ch 31 true in
   let? '(r2, ch) := load_reserve 617280 p ch 32 true in
   let ch := cache_reserve (cache_reserve (cache_reserve ch r0) r1) (set_dr r2 456) in
   let ch := cache_reserve ch (set_dr r1 123) in
   let? '(_, ch) := load_reserve 617280 p ch 32 false in
   let p := wipe 30 p in
   let? '(r0', ch) := load_reserve 617280 p ch 30 false in
   let? p := store_cached p ch in
   Ok (rd_d_rate (r_data r0') - rd_d_rate (r_data r0), map (drate p) [30; 31; 32])) = Ok (0, [0; 123; 456]).
Proof. by vm_compute. Qed.
Example test_reserve_cache_panics_if_missing_reserve_to_store :
  let p := cache_pool in
  (let? '(r0, ch) := load_reserve 617280 p (pool_load p) 30 false in
   let? '(r1, ch) := load_reserve 617280 p ch 31 true in
   let? '(r2, ch) := load_reserve 617280 p ch 32 true in
   let? p := store_cached p (cache_reserve (cache_reserve ch r0) r1) in Ok tt) = Err (PoolE 1209).
Proof. by vm_compute. Qed.
Definition act (s t : Z) := require_action (pool_load (cfg_to 2000000 s 2 (t_pool []))) t.
Example test_require_action_allowed_borrow_while_on_ice_panics : act 2 4 = Err (PoolE 1206). Proof. done. Qed.
Example test_require_action_allowed_borrow_while_active : act 1 4 = Ok tt. Proof. done. Qed.
Example test_require_action_allowed_cancel_liquidation_while_on_ice_panics : act 2 9 = Err (PoolE 1206). Proof. done. Qed.
Example test_require_action_allowed_cancel_liquidation_while_active : act 1 9 = Ok tt. Proof. done. Qed.
Example test_require_action_allowed_supply_while_frozen : act 4 0 = Err (PoolE 1206). Proof. done. Qed.
Example test_require_action_allowed_supply_collateral_while_frozen : act 4 2 = Err (PoolE 1206). Proof. done. Qed.
Example test_require_action_allowed_can_withdrawal_and_repay_while_frozen : (act 4 5, act 4 1, act 4 3) = (Ok tt, Ok tt, Ok tt). Proof. done. Qed.
Example test_load_price_decimals : (let? '(d, _) := load_dec (x0 7 []) (pool_load s_pool) in Ok d) = Ok 7. Proof. by vm_compute. Qed.
Example test_load_price :
  (let? '(a, ch) := load_price 0 (x0 7 [123; 456]) (pool_load s_pool) 30 in let? '(b, ch) := load_price 0 (x0 7 [123; 456]) ch 31 in
   let? '(c, ch) := load_price 0 (x0 7 [789; 101112]) ch 30 in Ok (a, b, c)) = Ok (123, 456, 123).
Proof. by vm_compute. Qed.
Example test_load_price_panics_if_stale :
  let x := t_ext (t_tok []) (t_bs 0) (mkOracle {[ 20 := 7 ]} {[ (20, 30) := (123, 1000) ]}) in
  load_price (1000 + 24 * 60 * 60 + 1) x (pool_load s_pool) 30 = Err (PoolE 1210) /\ (let? '(a, _) := load_price (1000 + 24 * 60 * 60) x (pool_load s_pool) 30 in Ok a) = Ok 123.
Proof. split; by vm_compute. Qed.
Definition under_max (before after : Positions) := require_under_max (pool_load s_pool) after (eff_count before).
Example test_require_under_max_empty : under_max no_positions (pos3 [] [(0, 1)] []) = Ok tt. Proof. by vm_compute. Qed.
Example test_require_under_max_ignores_supply : under_max (pos3 [] [(1, 1)] [(0, 42); (1, 42)]) (pos3 [(1, 2)] [(1, 1)] [(0, 42); (1, 42)]) = Ok tt. Proof. by vm_compute. Qed.
Example test_require_under_max_allows_decreasing_change :
  under_max (pos3 [(0, 123); (1, 123)] [(0, 42); (1, 42)] []) (pos3 [(0, 123); (1, 123)] [(0, 42)] []) = Ok tt. Proof. by vm_compute. Qed.
Example test_require_under_max_panics_if_over : under_max (pos3 [(0, 789)] [(0, 123)] []) (pos3 [(0, 789); (1, 42)] [(0, 123)] []) = Err (PoolE 1208). Proof. by vm_compute. Qed.
