(** * Unit tests of the emission and backstop code replayed on the model (fidelity checks)

    pool/src/emissions/*.rs, backstop/src/emissions/*.rs, backstop/src/backstop/*.rs *)
From Verif Require Import Base Types Token Emitter Factory Backstop PoolReserve PoolUser PoolHealth
  PoolAuction PoolEmis PoolAdmin World TestsReserve TestsAuction.

(** ** pool/src/emissions/distributor.rs *)
Definition e_pool (id exp eps idx last : Z) (u : option (Z * Z)) : PoolSt :=
  let p := set_edata (set_ecfg (t_pool []) id (mkEmisConfig exp eps)) id (mkEmisData idx last) in
  match u with Some (i, a) => set_uemis p 10 id (mkUserEmis i a) | None => p end.
Definition show_e (id : Z) (r : res (Z * PoolSt)) :=
  let? '(n, p) := r in Ok (n, ps_edata p !! id, ps_uemis p !! (10, id)).
Example test_p_update_emissions :
  show_e 2 (p_emissions 1501000000 (e_pool 2 1600000000 100000 2345678 1500000000 (Some (1234567, 1000000))) 2 500000000 10000000 10 20000000 false)
  = Ok (0, Some (mkEmisData 2002345678 1501000000), Some (mkUserEmis 2002345678 4003222222)).
Proof. by vm_compute. Qed.
Example test_p_claim_emissions :
  show_e 2 (p_emissions 1501000000 (e_pool 2 1600000000 100000 2345678 1500000000 (Some (1234567, 1000000))) 2 500000000 10000000 10 20000000 true)
  = Ok (4003222222, Some (mkEmisData 2002345678 1501000000), Some (mkUserEmis 2002345678 0)).
Proof. by vm_compute. Qed.
Example test_p_update_emissions_no_config_ignores :
  show_e 3 (p_emissions 1501000000 (e_pool 2 1600000000 100000 2345678 1500000000 None) 3 500000000 10000000 10 20000000 false) = Ok (0, None, None).
Proof. by vm_compute. Qed.
Example test_p_update_emissions_negative_time_diff :
  is_ok (p_emissions 1501000000 (e_pool 2 1600000000 100000 2345678 1501000001 (Some (1234567, 1000000))) 2 500000000 10000000 10 20000000 false) = false.
Proof. by vm_compute. Qed.
Definition show_ed (r : res (EmisData * PoolSt)) := let? '(d, _) := r in Ok d.
Definition upd_ed now exp eps idx last supply := show_ed (update_edata now (e_pool 2 exp eps idx last None) 2 supply 10000000 (mkEmisConfig exp eps)).
Example test_update_emission_data_expired_returns_old : upd_ed 1700000000 1600000000 100000 2345678 1600000000 1000000000 = Ok (mkEmisData 2345678 1600000000).
Proof. by vm_compute. Qed.
Example test_update_emission_data_updated_this_block : upd_ed 1500000000 1600000000 100000 2345678 1500000000 1000000000 = Ok (mkEmisData 2345678 1500000000).
Proof. by vm_compute. Qed.
Example test_update_emission_data_no_eps : upd_ed 1500000005 1600000000 0 2345678 1500000000 1000000000 = Ok (mkEmisData 2345678 1500000000).
Proof. by vm_compute. Qed.
Example test_update_emission_data_no_supply : upd_ed 1500000005 1600000000 100000 2345678 1500000000 0 = Ok (mkEmisData 2345678 1500000000).
Proof. by vm_compute. Qed.
Example test_update_emission_data_past_exp : upd_ed 1700000000 1600000001 100000 123456789 1500000000 1000000000 = Ok (mkEmisData 100123457789 1600000001).
Proof. by vm_compute. Qed.
Example test_update_emission_data_rounds_down : upd_ed 1500000005 1600000000 100000 123456789 1500000000 1000001111 = Ok (mkEmisData 123461788 1500000005).
Proof. by vm_compute. Qed.
(** a claim of the dToken of reserve 0 (5 decimals) and the bToken of reserve 1 (9 decimals) *)
Definition c_pool : PoolSt :=
  let p := t_pool [(rcfg 0 5 7500000 7500000, t_data <| rd_b_supply := 10000000 |> <| rd_d_supply := 5000000 |>);
                   (rcfg 1 9 7500000 7500000, t_data <| rd_b_supply := 100000000000 |> <| rd_d_supply := 50000000000 |>)] in
  let p := p <| ps_blnd := 41 |> in
  let p := set_pos p 10 (mkPositions (m [(0, 200000)]) (m [(1, 1000000000)]) (m [(1, 1000000000)])) in
  let p := set_uemis (set_edata (set_ecfg p 0 (mkEmisConfig 1600000000 100000)) 0 (mkEmisData 2345678 1500000000)) 10 0 (mkUserEmis 1234567 1000000) in
  set_uemis (set_edata (set_ecfg p 3 (mkEmisConfig 1600000000 150000)) 3 (mkEmisData 1345678 1500000000)) 10 3 (mkUserEmis 1234567 10000000).
Definition c_ext : Ext := t_ext (mkTok (list_to_map [((41, bs_addr), 1000000000000)]) (list_to_map [((41, bs_addr, -2), (1000000000000, 1000000))])) (t_bs 0) (t_orc 7 []).
Example test_execute_claim :
  (let? '(n, px) := p_claim (c0 1501000000 123) (-2) (mkPX c_pool c_ext) 10 [0; 3] 12 in
   Ok (n, balance (x_tok (px_x px)) 41 12, balance (x_tok (px_x px)) 41 bs_addr,
       (ps_edata (px_p px) !! 0, ps_uemis (px_p px) !! (10, 0)), (ps_edata (px_p px) !! 3, ps_uemis (px_p px) !! (10, 3))))
  = Ok (4003222222 + 3010222222, 4003222222 + 3010222222, 1000000000000 - (4003222222 + 3010222222),
       (Some (mkEmisData 2002345678 1501000000), Some (mkUserEmis 2002345678 0)),
       (Some (mkEmisData 1501345678 1501000000), Some (mkUserEmis 1501345678 0))).
Proof. by vm_compute. Qed.
Example test_calc_claim_with_invalid_reserve_panics : is_ok (p_claim (c0 1501000000 123) (-2) (mkPX c_pool c_ext) 10 [0; 7] 12) = false.
Proof. by vm_compute. Qed.

(** ** pool/src/emissions/manager.rs *)
Definition g_pool : PoolSt :=
  let p := t_pool [(rcfg 0 7 7500000 7500000, t_data <| rd_last_time := 1499995000 |>); (rcfg 1 7 7500000 7500000, t_data <| rd_last_time := 1499995000 |>)] in
  let p := p <| ps_pemis := m [(0, 2000000); (2, 5500000); (3, 2500000)] |> in
  let p := set_edata (set_ecfg p 0 (mkEmisConfig 1500000200 1500000)) 0 (mkEmisData 99999 1499980000) in
  set_edata (set_ecfg p 3 (mkEmisConfig 1499990000 3500000)) 3 (mkEmisData 11111 1499990000).
Example test_gulp_emissions_p :
  (let? p := do_gulp 1500000000 g_pool 3024000000000 in
   Ok (map (fun i => (ps_ecfg p !! i, ps_edata p !! i)) [0; 1; 2; 3]))
  = Ok [(Some (mkEmisConfig 1500604800 1000496), Some (mkEmisData (99999 + 40 * 10000000) 1500000000)); (None, None);
        (Some (mkEmisConfig 1500604800 2750000), Some (mkEmisData 0 1500000000));
        (Some (mkEmisConfig 1500604800 1250000), Some (mkEmisData 11111 1500000000))].
Proof. by vm_compute. Qed.
Example test_gulp_emissions_too_small : (let? p := do_gulp 1500000000 g_pool 1000000 in Ok (ps_ecfg p !! 0)) = Err (PoolE 1200).
Proof. by vm_compute. Qed.
Definition set_emis l := let? p := p_set_emis (c0 0 0) (t_pool [(rcfg 0 7 0 0, t_data); (rcfg 1 7 0 0, t_data); (rcfg 2 7 0 0, t_data); (rcfg 3 7 0 0, t_data)]) l in Ok (entries (ps_pemis p)).
Example test_set_pool_emissions : set_emis [mkEmisMeta 0 1 2500000; mkEmisMeta 3 0 7500000] = Ok [(1, 2500000); (6, 7500000)].
Proof. by vm_compute. Qed.
Example test_set_pool_emissions_panics_if_over_100 : set_emis [mkEmisMeta 0 1 2500000; mkEmisMeta 3 0 7500001] = Err (PoolE 1200).
Proof. by vm_compute. Qed.
Example test_set_pool_emissions_ok_if_under_100 : set_emis [mkEmisMeta 0 1 2000000; mkEmisMeta 3 0 7500000] = Ok [(1, 2000000); (6, 7500000)].
Proof. by vm_compute. Qed.

(** ** backstop/src/emissions/distributor.rs *)
Definition EPOCH := BACKSTOP_EPOCH.
Definition be_ext (exp eps idx last : Z) (u : option (Z * Z)) : Ext :=
  let x := set_bedata (set_becfg (x0 7 []) (-2) (mkEmisConfig exp eps)) (-2) (mkEmisData idx last) in
  match u with Some (i, a) => set_buemis x (-2) 10 (mkUserEmis i a) | None => x end.
Definition b_show (r : res (Z * Ext)) := let? '(n, x) := r in Ok (n, bs_edata (x_bs x) !! (-2), bs_uemis (x_bs x) !! (-2, 10)).
Example test_b_update_emissions :
  b_show (b_emissions (c0 (EPOCH + 1234) 0) (be_ext (EPOCH + 604800) 1000000 22222 EPOCH (Some (11111, 3))) (-2) (mkPoolBal 1500000000 2000000000 0) 10 (mkUserBal 90000000 []) false)
  = Ok (0, Some (mkEmisData 8248888 (EPOCH + 1234)), Some (mkUserEmis 8248888 74139996)).
Proof. by vm_compute. Qed.
Example test_b_update_emissions_first_action :
  b_show (b_emissions (c0 (EPOCH + 12345) 0) (be_ext (EPOCH + 604800) 420000 0 EPOCH None) (-2) (mkPoolBal 1000000000 1000000000 0) 10 (mkUserBal 0 []) false)
  = Ok (0, Some (mkEmisData (12345 * 420000 * 10000000 / 1000000000) (EPOCH + 12345)), Some (mkUserEmis (12345 * 420000 * 10000000 / 1000000000) 0)).
Proof. by vm_compute. Qed.
Example test_b_update_emissions_q4w_not_counted :
  b_show (b_emissions (c0 (EPOCH + 1234) 0) (be_ext (EPOCH + 604800) 1000000 22222 EPOCH (Some (11111, 3))) (-2) (mkPoolBal 1500000000 2000000000 45000000) 10
    (mkUserBal 45000000 [mkQ4W 45000000 5000]) false)
  = Ok (0, Some (mkEmisData 8503321 (EPOCH + 1234)), Some (mkUserEmis 8503321 38214948)).
Proof. by vm_compute. Qed.
Example test_b_claim_emissions :
  b_show (b_emissions (c0 (EPOCH + 1234) 0) (be_ext (EPOCH + 604800) 1000000 22222 EPOCH (Some (11111, 3))) (-2) (mkPoolBal 1500000000 2000000000 0) 10 (mkUserBal 90000000 []) true)
  = Ok (74139996, Some (mkEmisData 8248888 (EPOCH + 1234)), Some (mkUserEmis 8248888 0)).
Proof. by vm_compute. Qed.
Example test_b_more_q4w_than_shares_panics :
  is_ok (b_emissions (c0 (EPOCH + 1234) 0) (be_ext (EPOCH + 604800) 1000000 22222 EPOCH (Some (11111, 3))) (-2) (mkPoolBal 1500000000 2000000000 1500000001) 10 (mkUserBal 90000000 []) true) = false.
Proof. by vm_compute. Qed.

(** ** backstop/src/emissions/manager.rs *)
Definition bg_ext : Ext :=
  let x := x0 7 [] in
  let x := x <| x_em := empty_emitter <| em_init := true |> <| em_last := {[ bs_addr := EPOCH - 10 ]} |> |> in
  let x := set_bs x (fun s => s <| bs_emitter := em_addr |> <| bs_last := EPOCH - 10 - 604800 |> <| bs_rz := [-2; -3; -4] |>) in
  let x := set_bedata (set_becfg x (-2) (mkEmisConfig (EPOCH + 1000) 1000000)) (-2) (mkEmisData 887766 (EPOCH - 12345)) in
  let x := set_bedata (set_becfg x (-3) (mkEmisConfig (EPOCH - 12345) 500000)) (-3) (mkEmisData 453234 (EPOCH - 12345)) in
  let x := set_pemis x (-2) 1001230000000 in
  set_pb (set_pb (set_pb x (-2) (mkPoolBal 2000000000000 3000000000000 0)) (-3) (mkPoolBal 1500000000000 2000000000000 0)) (-4) (mkPoolBal 6000000000000 5000000000000 0).
Example test_b_gulp_emissions :
  (let? '(_, x) := b_gulp (c0 EPOCH 0) bg_ext in
   Ok (bs_last (x_bs x), map (fun p => (get_pemis x p, bs_ecfg (x_bs x) !! p, bs_edata (x_bs x) !! p)) [-2; -3; -4]))
  = Ok (EPOCH - 10,
     [(1545550000000, Some (mkEmisConfig (EPOCH + 604800) 2101653), Some (mkEmisData 949491 EPOCH));
      (362880000000, Some (mkEmisConfig (EPOCH + 604800) 1400000), Some (mkEmisData 453234 EPOCH));
      (907200000000, Some (mkEmisConfig (EPOCH + 604800) 3500000), Some (mkEmisData 0 EPOCH))]).
Proof. by vm_compute. Qed.
Example test_b_gulp_emissions_too_soon :
  is_ok (b_gulp (c0 EPOCH 0) (set_bs bg_ext (fun s => s <| bs_last := EPOCH - 10 - 60 * 60 |>))) = false.
Proof. by vm_compute. Qed.

(** ** backstop/src/emissions/claim.rs: test_claim (LP tokens received: 6.4729326) *)
Definition bc_ext : Ext :=
  let x := t_ext (t_tok [((41, bs_addr), 1000000000)]) (t_bs 0 <| bs_blnd := 41 |>) (t_orc 7 []) in
  let x := set_buemis (set_bedata (set_becfg x (-2) (mkEmisConfig (1500000000 + 604800) 1000000)) (-2) (mkEmisData 22222 1500000000)) (-2) 10 (mkUserEmis 11111 12345678) in
  let x := set_buemis (set_bedata (set_becfg x (-3) (mkEmisConfig (1500000000 + 604800) 200000)) (-3) (mkEmisData 0 1500010000)) (-3) 10 (mkUserEmis 0 0) in
  let x := set_ub (set_pb x (-2) (mkPoolBal 1500000000 2000000000 20000000)) (-2) 10 (mkUserBal 90000000 []) in
  set_ub (set_pb x (-3) (mkPoolBal 700000000 750000000 35000000)) (-3) 10 (mkUserBal 75000000 []).
Example test_b_claim :
  (let? '(n, x) := b_claim (c0 (1500000000 + 12345) 0) bc_ext 10 [-2; -3] 11 64729326 in
   Ok (n, (balance (x_tok x) 40 bs_addr, balance (x_tok x) 41 bs_addr),
       map (fun p => (get_pb x p, ub_shares (get_ub x p 10), ub_shares (get_ub x p 11))) [-2; -3],
       map (fun p => (bs_edata (x_bs x) !! p, bs_uemis (x_bs x) !! (p, 10))) [-2; -3]))
  = Ok (753145677 + 62904190, (64729326, 1000000000 - (753145677 + 62904190)),
      [(mkPoolBal (1500000000 + 45400274) (2000000000 + 60533699) 20000000, 90000000, 45400274);
       (mkPoolBal (700000000 + 3915917) (750000000 + 4195626) 35000000, 75000000, 3915917)],
      [(Some (mkEmisData 83434384 1500012345), Some (mkUserEmis 83434384 0)); (Some (mkEmisData 7052631 1500012345), Some (mkUserEmis 7052631 0))]).
Proof. by vm_compute. Qed.

(** ** backstop/src/backstop/pool.rs *)
Definition pd_ext b := set_pb (set_bs (x0 7 []) (fun s => s <| bs_lpval := Some (50000000, 500000) |>)) (-2) b.
Example test_load_pool_data : pool_data (pd_ext (mkPoolBal 1500000000 2500000000 500000000)) (-2) = Ok (mkPoolData 2500000000 3333334 12500000000 125000000).
Proof. by vm_compute. Qed.
Example test_load_pool_data_no_shares : pool_data (pd_ext (mkPoolBal 0 2500000000 0)) (-2) = Ok (mkPoolData 2500000000 0 12500000000 125000000).
Proof. by vm_compute. Qed.
Example test_require_pool_above_threshold :
  above_threshold (mkPoolData 200000000000 0 3000000000000 250000000000) = false /\
  above_threshold (mkPoolData 5000000000 0 50000000000 10000000000) = false /\
  above_threshold (mkPoolData 150000000000 0 3646430000000 181000000000) = true /\
  above_threshold (mkPoolData 9999990000000 0 500000000000000 100000000000000) = true.
Proof. by vm_compute. Qed.
Example test_convert :
  to_shares (mkPoolBal 0 0 0) 1234567 = Ok 1234567 /\ to_shares (mkPoolBal 80321 103302 0) 1234567 = Ok 959920 /\
  to_tokens (mkPoolBal 0 0 0) 1234567 = Ok 1234567 /\ to_tokens (mkPoolBal 80321 103302 0) 40000 = Ok 51444.
Proof. by vm_compute. Qed.

(** ** backstop/src/backstop/user.rs *)
Definition deq now n req q := let? b := ub_dequeue (c0 now 1) (mkUserBal 1000 q) n req in Ok (ub_shares b, ub_q4w b).
Example test_withdraw_shares_no_q4w_panics : deq 11000000 1 true [] = Err (BackE 10).
Proof. by vm_compute. Qed.
Example test_withdraw_shares_exact_amount : deq 12592000 200 true [mkQ4W 200 12592000] = Ok (1000, []).
Proof. by vm_compute. Qed.
Example test_withdraw_shares_less_than_entry : deq 12592000 150 false [mkQ4W 200 12592000] = Ok (1000, [mkQ4W 50 12592000]).
Proof. by vm_compute. Qed.
Example test_withdraw_shares_multiple_entries :
  deq 22592000 300 true [mkQ4W 125 10000000; mkQ4W 200 12592000; mkQ4W 50 19592000] = Ok (1000, [mkQ4W 25 12592000; mkQ4W 50 19592000]).
Proof. by vm_compute. Qed.
Example test_withdraw_shares_multiple_entries_not_exp :
  deq 11192000 300 false [mkQ4W 125 10000000; mkQ4W 200 12592000; mkQ4W 50 19592000] = Ok (1000, [mkQ4W 25 12592000; mkQ4W 50 19592000]) /\
  deq 11192000 300 true [mkQ4W 125 10000000; mkQ4W 200 12592000; mkQ4W 50 19592000] = Err (BackE 1001).
Proof. by vm_compute. Qed.
Example test_try_withdraw_shares_over_total : deq 22592000 376 false [mkQ4W 125 10000000; mkQ4W 200 12592000; mkQ4W 50 19592000] = Err (BackE 10).
Proof. by vm_compute. Qed.

(** ** pool/src/emissions/distributor.rs: update_user_emissions *)
Definition uue (u : option (Z * Z)) (bal : Z) (claim : bool) :=
  let p := match u with Some (i, a) => set_uemis (t_pool []) 10 2 (mkUserEmis i a) | None => t_pool [] end in
  let? '(n, p) := update_user_emis p (mkEmisData 123456789 1500000000) 2 10000000 10 bal claim in Ok (n, ps_uemis p !! (10, 2)).
Example test_update_user_emissions_first_time : uue None 0 false = Ok (0, Some (mkUserEmis 123456789 0)).
Proof. by vm_compute. Qed.
Example test_update_user_emissions_first_time_had_tokens : uue None 5000000 false = Ok (0, Some (mkUserEmis 123456789 61728394)).
Proof. by vm_compute. Qed.
Example test_update_user_emissions_no_bal_no_accrual : uue (Some (56789, 1000000)) 0 false = Ok (0, Some (mkUserEmis 123456789 1000000)).
Proof. by vm_compute. Qed.
Example test_update_user_emissions_if_accrued_skips : uue (Some (123456789, 11000000)) 5000000 false = Ok (0, Some (mkUserEmis 123456789 11000000)).
Proof. by vm_compute. Qed.
Example test_update_user_emissions_accrues : uue (Some (56789, 1000000)) 5000000 false = Ok (0, Some (mkUserEmis 123456789 62700000)).
Proof. by vm_compute. Qed.
Example test_update_user_emissions_claim_returns_accrual : uue (Some (56789, 1000000)) 5000000 true = Ok (62700000, Some (mkUserEmis 123456789 0)).
Proof. by vm_compute. Qed.
Example test_update_user_emissions_claim_first_time_claims_tokens : uue None 5000000 true = Ok (61728394, Some (mkUserEmis 123456789 0)).
Proof. by vm_compute. Qed.
Example test_update_user_emissions_negative_index : uue (Some (123456790, 1000000)) 5000000 true = Err (PoolE 8).
Proof. by vm_compute. Qed.
Example test_p_claim_emissions_no_config_ignores :
  show_e 3 (p_emissions 1501000000 (t_pool []) 3 1000000000 10000000 10 20000000 true) = Ok (0, None, None).
Proof. by vm_compute. Qed.
Definition c_pool2 : PoolSt := set_uemis (set_edata c_pool 3 (mkEmisData 1345678 1501000000)) 10 3 (mkUserEmis 1345678 0).
Example test_execute_claim_with_already_claimed_reserve :
  (let? '(n, px) := p_claim (c0 1501000000 123) (-2) (mkPX c_pool2 c_ext) 10 [0; 3] 12 in
   Ok (n, balance (x_tok (px_x px)) 41 12, balance (x_tok (px_x px)) 41 bs_addr,
       (ps_edata (px_p px) !! 0, ps_uemis (px_p px) !! (10, 0)), (ps_edata (px_p px) !! 3, ps_uemis (px_p px) !! (10, 3))))
  = Ok (4003222222, 4003222222, 1000000000000 - 4003222222,
       (Some (mkEmisData 2002345678 1501000000), Some (mkUserEmis 2002345678 0)),
       (Some (mkEmisData 1345678 1501000000), Some (mkUserEmis 1345678 0))).
Proof. by vm_compute. Qed.
(** ** pool/src/emissions/manager.rs *)
Example test_gulp_emissions_no_pool_emissions_does_nothing :
  (let? p := do_gulp 1500000000 (g_pool <| ps_pemis := ∅ |>) 3024000000000 in Ok (ps_ecfg p)) = Ok (ps_ecfg g_pool).
Proof. vm_compute. done. Qed.
(** ** pool/src/validator.rs *)
Example test_require_nonnegative : p_nonneg 1 = Ok tt /\ p_nonneg (-1) = Err (PoolE 8).
Proof. by vm_compute. Qed.
