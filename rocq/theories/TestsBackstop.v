(** * Unit tests of the backstop, the emitter and the factory replayed on the model (fidelity checks)

    backstop/src/backstop/*.rs, backstop/src/emissions/*.rs, emitter/src/*.rs, pool-factory/src/test.rs *)
From Verif Require Import Base Types Token Emitter Factory Backstop PoolReserve PoolUser PoolHealth
  PoolAuction PoolEmis PoolAdmin World TestsReserve TestsAuction TestsEmis.

(** two pools known to the factory, the LP token is 40, BLND 41, USDC 42 *)
Definition d_ext (l : list (Addr * Addr * Z)) : Ext :=
  mkExt (t_tok l) empty_emitter
    (empty_backstop <| bs_init := true |> <| bs_token := 40 |> <| bs_blnd := 41 |> <| bs_usdc := 42 |> <| bs_factory := fac_addr |>)
    (empty_factory <| fa_deployed := {[ -3; -5 ]} |>) (t_orc 7 []) 0 [].
Definition no_factory (x : Ext) : Ext := x <| x_fac := empty_factory |>.
Notation frodo := 10. Notation samwise := 11.
Definition at0 := c0 0 0.
Definition dep u p n (x : Ext) := let? '(_, x) := b_deposit at0 x u p n in Ok x.
Definition don u p n (x : Ext) := b_donate at0 x u p n.
Definition que now u p n (x : Ext) := let? '(_, x) := b_queue (c0 now 100) x u p n in Ok x.

(** ** backstop/src/backstop/deposit.rs *)
Example test_execute_deposit :
  (let? x := dep frodo (-3) 250000000 (d_ext [((40, samwise), 1000000000); ((40, frodo), 1000000000)]) in
   let? x := don frodo (-3) 250000000 x in
   let? '(s0, x) := b_deposit at0 x samwise (-3) 300000000 in
   let? '(s1, x) := b_deposit at0 x samwise (-5) 700000000 in
   Ok (s0, s1, (get_pb x (-3), get_pb x (-5)), (ub_shares (get_ub x (-3) samwise), ub_shares (get_ub x (-5) samwise)),
       balance (x_tok x) 40 bs_addr, balance (x_tok x) 40 samwise))
  = Ok (150000000, 700000000, (mkPoolBal 400000000 800000000 0, mkPoolBal 700000000 700000000 0), (150000000, 700000000), 1500000000, 0).
Proof. by vm_compute. Qed.
Definition d1 := d_ext [((40, samwise), 1000000000)].
Example test_execute_deposit_too_many_tokens : is_ok (dep samwise (-3) 1000000001 d1) = false.
Proof. by vm_compute. Qed.
Example test_execute_deposit_negative_tokens : dep samwise (-3) (-100) d1 = Err (BackE 8).
Proof. by vm_compute. Qed.
Example test_execute_deposit_from_is_to : dep (-3) (-3) 100 d1 = Err (BackE 1000).
Proof. by vm_compute. Qed.
Example test_execute_deposit_from_self : dep bs_addr (-3) 100 d1 = Err (BackE 1000).
Proof. by vm_compute. Qed.
Example text_execute_deposit_not_pool : dep samwise (-3) 100 (no_factory d1) = Err (BackE 1004).
Proof. by vm_compute. Qed.
Example test_execute_deposit_zero_share_mint :
  (let? x := dep frodo (-3) 10000000 (d_ext [((40, samwise), 1000000000); ((40, frodo), 1000000000000000)]) in
   let? x := don frodo (-3) 100000000000000 x in dep samwise (-3) 10000000 x) = Err (BackE 1005).
Proof. by vm_compute. Qed.

(** ** backstop/src/backstop/withdrawal.rs *)
Example test_execute_queue_withdrawal :
  (let? x := dep samwise (-3) 1000000000 d1 in
   let? '(_, x) := b_queue (c0 10000 200) x samwise (-3) 420000000 in
   Ok (get_ub x (-3) samwise, get_pb x (-3), balance (x_tok x) 40 bs_addr, balance (x_tok x) 40 samwise))
  = Ok (mkUserBal 580000000 [mkQ4W 420000000 (10000 + 21 * 24 * 60 * 60)], mkPoolBal 1000000000 1000000000 420000000, 1000000000, 0).
Proof. by vm_compute. Qed.
Example test_execute_queue_withdrawal_negative_amount :
  (let? x := dep samwise (-3) 1000000000 d1 in que 10000 samwise (-3) (-420000000) x) = Err (BackE 8).
Proof. by vm_compute. Qed.
Definition dq n :=
  let? x := dep samwise (-3) 750000000 d1 in
  let? x := que 0 samwise (-3) 250000000 x in
  let? x := que 10000 samwise (-3) 400000000 x in
  let? x := b_dequeue (c0 20000 200) x samwise (-3) n in
  Ok (get_ub x (-3) samwise, get_pb x (-3)).
Example test_execute_dequeue_withdrawal :
  dq 300000000 = Ok (mkUserBal 400000000 [mkQ4W 350000000 (10000 + 21 * 24 * 60 * 60)], mkPoolBal 750000000 750000000 350000000).
Proof. by vm_compute. Qed.
Example test_execute_dequeue_withdrawal_negative_amount : dq (-300000000) = Err (BackE 8).
Proof. by vm_compute. Qed.
Definition wd n :=
  let? x := dep samwise (-3) 1000000000 (d_ext [((40, samwise), 1500000000)]) in
  let? x := que 10000 samwise (-3) 420000000 x in
  let? x := don samwise (-3) 500000000 x in
  let? '(t, x) := b_withdraw (c0 (10000 + 21 * 24 * 60 * 60 + 1) 200) x samwise (-3) n in
  Ok (t, get_ub x (-3) samwise, get_pb x (-3), balance (x_tok x) 40 bs_addr, balance (x_tok x) 40 samwise).
Example test_execute_withdrawal :
  wd 420000000 = Ok (630000000, mkUserBal (1000000000 - 420000000) [], mkPoolBal (1000000000 - 420000000) (1500000000 - 630000000) 0,
                     1500000000 - 630000000, 630000000).
Proof. by vm_compute. Qed.
Example test_execute_withdrawal_negative_amount : wd (-420000000) = Err (BackE 8).
Proof. by vm_compute. Qed.
Example test_execute_withdrawal_zero_tokens :
  (let? x := dep frodo (-3) 10000001 (d_ext [((40, samwise), 1500000000); ((40, frodo), 1500000000)]) in
   let? x := dep samwise (-3) 10000000 x in
   let? x := que 10000 samwise (-3) 10000000 x in
   let? x := b_draw at0 x (-3) 19999999 frodo in
   let? '(_, x) := b_withdraw (c0 (10000 + 21 * 24 * 60 * 60 + 1) 200) x samwise (-3) 10000000 in Ok x) = Err (BackE 1006).
Proof. by vm_compute. Qed.

(** ** backstop/src/backstop/fund_management.rs *)
Definition d2 := d_ext [((40, samwise), 1000000000); ((40, frodo), 1000000000)].
Definition dd u p n := let? x := dep frodo (-3) 250000000 d2 in let? x := don u p n x in Ok (get_pb x (-3)).
Example test_execute_donate : dd samwise (-3) 300000000 = Ok (mkPoolBal 250000000 550000000 0).
Proof. by vm_compute. Qed.
Example test_execute_donate_negative_amount : dd samwise (-3) (-300000000) = Err (BackE 8).
Proof. by vm_compute. Qed.
Example test_execute_donate_from_is_to : dd (-3) (-3) 100000000 = Err (BackE 1000).
Proof. by vm_compute. Qed.
Example test_execute_donate_from_is_self : dd bs_addr (-3) 100000000 = Err (BackE 1000).
Proof. by vm_compute. Qed.
Example test_execute_donate_not_pool : don samwise (-3) 300000000 (no_factory d2) = Err (BackE 1004).
Proof. by vm_compute. Qed.
Definition dr n :=
  let? x := dep frodo (-3) 500000000 (d_ext [((40, frodo), 1000000000)]) in
  let? x := dep frodo (-5) 500000000 x in
  let? x := b_draw at0 x (-3) n samwise in
  Ok (get_pb x (-3), balance (x_tok x) 40 samwise).
Example test_execute_draw :
  (let? x := dep frodo (-3) 500000000 (d_ext [((40, frodo), 1000000000)]) in
   let? x := b_draw at0 x (-3) 300000000 samwise in
   Ok (get_pb x (-3), balance (x_tok x) 40 bs_addr, balance (x_tok x) 40 samwise)) = Ok (mkPoolBal 500000000 200000000 0, 200000000, 300000000).
Proof. by vm_compute. Qed.
Example test_execute_draw_only_can_take_from_pool : dr 510000000 = Err (BackE 1003).
Proof. by vm_compute. Qed.
Example test_execute_draw_negative_amount : dr (-300000000) = Err (BackE 8).
Proof. by vm_compute. Qed.
(** the Comet pool holds 1000 BLND and 25 USDC and has issued 100 LP tokens *)
Example test_execute_update_comet_token_value :
  (let? '(v, x) := b_update_tkn_val at0 (d_ext [((41, 40), 10000000000); ((42, 40), 250000000)] <| x_lp_supply := 1000000000 |>) in
   Ok (v, bs_lpval (x_bs x))) = Ok ((100000000, 2500000), Some (100000000, 2500000)).
Proof. by vm_compute. Qed.

(** ** backstop/src/backstop/pool.rs (the others are in TestsEmis) *)
Example test_require_is_from_pool_factory : require_pool d1 (-3) 0 = Ok tt.
Proof. by vm_compute. Qed.
Example test_require_is_from_pool_factory_skips_if_balance : require_pool (set_bs (no_factory d1) (fun s => s <| bs_factory := 0 |>)) (-3) 1 = Ok tt.
Proof. by vm_compute. Qed.
Example test_require_is_from_pool_factory_not_valid : require_pool d1 (-7) 0 = Err (BackE 1004).
Proof. by vm_compute. Qed.
Definition pb0 := mkPoolBal 100 200 25.
Example test_pb_deposit : pb_deposit pb0 50 25 = Ok (mkPoolBal 125 250 25).
Proof. by vm_compute. Qed.
Example test_pb_withdraw : pb_withdraw pb0 50 25 = Ok (mkPoolBal 75 150 0).
Proof. by vm_compute. Qed.
Example test_pb_withdraw_too_much : pb_withdraw pb0 201 25 = Err (BackE 1003).
Proof. by vm_compute. Qed.
Example test_pb_dequeue_q4w : pb_dequeue pb0 25 = Ok (mkPoolBal 100 200 0).
Proof. by vm_compute. Qed.
Example test_pb_dequeue_q4w_too_much : pb_dequeue pb0 26 = Err (BackE 1003).
Proof. by vm_compute. Qed.

(** ** backstop/src/backstop/user.rs (the others are in TestsEmis) *)
Example test_add_shares : ub_add (mkUserBal 100 []) 12318972 = Ok (mkUserBal (12318972 + 100) []).
Proof. by vm_compute. Qed.
Example test_q4w_none_queued : ub_queue (c0 10000 1) (mkUserBal 1000 []) 500 = Ok (mkUserBal 500 [mkQ4W 500 (10000 + 21 * 24 * 60 * 60)]).
Proof. by vm_compute. Qed.
Example test_q4w_new_placed_last : ub_queue (c0 11000000 1) (mkUserBal 1000 [mkQ4W 200 12592000]) 500
  = Ok (mkUserBal 500 [mkQ4W 200 12592000; mkQ4W 500 (11000000 + 21 * 24 * 60 * 60)]).
Proof. by vm_compute. Qed.
Definition q_n (n : nat) := map (fun i => mkQ4W 200 (12592000 + Z.of_nat i)) (seq 0 n).
Example test_q4w_new_to_max_works : ub_queue (c0 11000000 1) (mkUserBal 1000 (q_n 20)) 500
  = Ok (mkUserBal 500 (q_n 20 ++ [mkQ4W 500 (11000000 + 21 * 24 * 60 * 60)])).
Proof. by vm_compute. Qed.
Example test_q4w_new_over_max_panics : ub_queue (c0 11000000 1) (mkUserBal 1000 (q_n 21)) 500 = Err (BackE 1007).
Proof. by vm_compute. Qed.
Example test_q4w_over_shares_panics : ub_queue (c0 11000000 1) (mkUserBal 800 [mkQ4W 200 12592000]) 801 = Err (BackE 10).
Proof. by vm_compute. Qed.
Example test_try_dequeue_shares_require_expired_expect_panic :
  deq 11192000 300 true [mkQ4W 125 10000000; mkQ4W 200 12592000; mkQ4W 50 19592000] = Err (BackE 1001).
Proof. by vm_compute. Qed.
Example test_try_withdraw_shares_over_total_early :
  deq 11192000 376 false [mkQ4W 125 10000000; mkQ4W 200 12592000; mkQ4W 50 19592000] = Err (BackE 10).
Proof. by vm_compute. Qed.

(** ** backstop/src/emissions/manager.rs (the others are in TestsEmis) *)
Definition gp_ext (tok : Tok) (n : Z) := set_pemis (d_ext [] <| x_tok := tok |>) (-3) n.
Definition gp (r : res (Z * Ext)) := let? '(n, x) := r in Ok (n, get_pemis x (-3), allowance (c0 EPOCH 0) (x_tok x) 41 bs_addr (-3)).
Example test_gulp_pool_emissions : gp (b_gulp_pool (c0 EPOCH 0) (gp_ext (t_tok []) 1001230000000) (-3)) = Ok (1001230000000, 0, 1001230000000).
Proof. by vm_compute. Qed.
Example test_gulp_pool_emissions_has_allowance :
  gp (b_gulp_pool (c0 EPOCH 0) (gp_ext (mkTok ∅ (list_to_map [((41, bs_addr, -3), (1234567, 1000))])) 1230000000) (-3)) = Ok (1230000000, 0, 1231234567).
Proof. by vm_compute. Qed.
Example test_gulp_pool_emissions_no_emissions : gp (b_gulp_pool (c0 EPOCH 0) (d_ext []) (-3)) = Err (BackE 1000).
Proof. by vm_compute. Qed.
(** a reward zone [rz], the pool to add and the pool to remove; 5 BLND and 0.1 USDC per LP token *)
Definition rz_ext rz last badd brem : Ext :=
  let x := set_bs (d_ext []) (fun s => s <| bs_rz := rz |> <| bs_last := last |> <| bs_lpval := Some (50000000, 1000000) |>) in
  set_pemis (set_pb (set_pb x (-101) badd) (-102) brem) (-102) 1.
Definition add_rz now rz last badd brem :=
  let? x := b_add_reward (c0 now 0) (rz_ext rz last badd brem) (-101) (-102) in Ok (bs_rz (x_bs x), get_pemis x (-102)).
Definition big := mkPoolBal 900000000000 1000000000000 10000000000.
Definition bigger := mkPoolBal 900000000000 1000010000000 10000000000.
Definition none := mkPoolBal 0 0 0.
Definition nine := [-1; -2; -3; -4; -5; -6; -7; -8; -9].
Definition ten := nine ++ [-10].
Definition with_rem := [-1; -2; -3; -4; -5; -6; -7; -102; -9; -10].
Definition day := 24 * 60 * 60.
Example test_add_to_rz_empty_adds_pool : add_rz EPOCH [] 0 big none = Ok ([-101], 1).
Proof. by vm_compute. Qed.
Example test_add_to_rz_before_epoch_max_10 : add_rz (EPOCH - 100000) nine 0 big none = Ok (-101 :: nine, 1).
Proof. by vm_compute. Qed.
Example test_add_to_rz_empty_pool_under_backstop_threshold : add_rz EPOCH [] 0 (mkPoolBal 1000000000000 750000000000 10000000000) none = Err (BackE 1002).
Proof. by vm_compute. Qed.
Example test_add_to_rz_increases_size_over_time : add_rz (EPOCH + Z.shiftl 1 23) ten 0 big none = Ok (-101 :: ten, 1).
Proof. by vm_compute. Qed.
Example test_add_to_rz_takes_floor_for_size : add_rz (EPOCH + Z.shiftl 1 23 - 1) ten 0 big none = Err (BackE 1002).
Proof. by vm_compute. Qed.
Example test_add_to_rz_swap_happy_path : add_rz EPOCH with_rem (EPOCH - day) bigger big = Ok ([-1; -2; -3; -4; -5; -6; -7; -101; -9; -10], 1).
Proof. by vm_compute. Qed.
Example test_add_to_rz_swap_not_enough_tokens : add_rz EPOCH with_rem (EPOCH - day) big big = Err (BackE 1002).
Proof. by vm_compute. Qed.
Example test_add_to_rz_swap_distribution_too_long_ago : add_rz EPOCH with_rem (EPOCH - day - 1) bigger big = Err (BackE 1000).
Proof. by vm_compute. Qed.
Example test_add_to_rz_to_remove_not_in_rz : add_rz EPOCH ten (EPOCH - day) bigger big = Err (BackE 1002).
Proof. by vm_compute. Qed.
Example test_add_to_rz_already_exists_panics : add_rz EPOCH [-1; -102; -3; -4; -5; -6; -7; -101; -9; -10] (EPOCH - day) bigger big = Err (BackE 1000).
Proof. by vm_compute. Qed.

(** ** backstop/src/emissions/distributor.rs (the others are in TestsEmis) *)
Definition b_em now x pb ub claim := b_show (b_emissions (c0 now 0) x (-2) pb 10 ub claim).
Definition pbE := mkPoolBal 1500000000 2000000000 0.
Example test_b_update_emissions_no_config : b_em (EPOCH + 1234) (x0 7 []) pbE (mkUserBal 90000000 []) false = Ok (0, None, None).
Proof. by vm_compute. Qed.
Example test_b_update_emissions_first_action_2 :
  b_em (EPOCH + 12345) (be_ext (EPOCH + 604800) 420000 22222 EPOCH None) pbE (mkUserBal 0 []) false
  = Ok (0, Some (mkEmisData 34588222 (EPOCH + 12345)), Some (mkUserEmis 34588222 0)).
Proof. by vm_compute. Qed.
Example test_b_update_emissions_config_set_after_user :
  b_em (EPOCH + 12345) (be_ext (EPOCH + 604800) 420000 0 EPOCH None) pbE (mkUserBal 90000000 []) false
  = Ok (0, Some (mkEmisData 34566000 (EPOCH + 12345)), Some (mkUserEmis 34566000 311094000)).
Proof. by vm_compute. Qed.
Example test_b_claim_emissions_no_config : b_em (EPOCH + 1234) (x0 7 []) pbE (mkUserBal 90000000 []) true = Ok (0, None, None).
Proof. by vm_compute. Qed.
Example test_b_update_emissions_more_q4w_than_shares_panics :
  b_em (EPOCH + 1234) (be_ext (EPOCH + 604800) 1000000 22222 EPOCH (Some (11111, 3))) (mkPoolBal 1500000000 2000000000 1500000001)
    (mkUserBal 45000000 [mkQ4W 45000000 5000]) false = Err (BackE 8).
Proof. by vm_compute. Qed.
Example test_b_update_emissions_negative_time_dif :
  is_ok (b_em (EPOCH + 1234) (be_ext (EPOCH + 604800) 1000000 22222 (EPOCH + 1235) (Some (11111, 3))) pbE (mkUserBal 45000000 []) false) = false.
Proof. by vm_compute. Qed.
Example test_b_update_emissions_negative_user_index :
  b_em (EPOCH + 1234) (be_ext (EPOCH + 604800) 1000000 22222 EPOCH (Some (34566001, 3))) pbE (mkUserBal 45000000 []) false = Err (BackE 8).
Proof. by vm_compute. Qed.

(** ** backstop/src/emissions/claim.rs: test_claim_twice (two claims, 12345 seconds apart) and
    test_claim_no_deposits; the LP tokens received are the ones of the test *)
Definition bc2_ext : Ext := bc_ext <| x_tok := t_tok [((41, bs_addr), 2000000000)] |>.
Example test_b_claim_twice :
  (let? '(n1, x) := b_claim (c0 (1500000000 + 12345) 0) bc2_ext 10 [-2; -3] 11 64729326 in
   let? '(n, x') := b_claim (c0 (1500000000 + 12345 + 12345) 0) x 10 [-2; -3] 11 78404581 in
   Ok (n1, n, (balance (x_tok x') 40 bs_addr, balance (x_tok x') 41 bs_addr),
       map (fun p => (pb_tokens (get_pb x' p) - pb_tokens (get_pb x p), pb_shares (get_pb x' p) - pb_shares (get_pb x p),
                      ub_shares (get_ub x' p 10), ub_shares (get_ub x' p 11) - ub_shares (get_ub x p 11))) [-2; -3],
       map (fun p => (bs_edata (x_bs x') !! p, bs_uemis (x_bs x') !! (p, 10))) [-2; -3]))
  = Ok (753145677 + 62904190, 1005194703, (65244800 + 77889107, 2000000000 - (753145677 + 62904190) - 1005194703),
      [(56812124, 42609092, 90000000, 42609092); (21592456, 20152958, 75000000, 20152958)],
      [(Some (mkEmisData 164363961 1500024690), Some (mkUserEmis 164363961 0)); (Some (mkEmisData 43963099 1500024690), Some (mkUserEmis 43963099 0))]).
Proof. by vm_compute. Qed.
Example test_b_claim_no_deposits :
  (let x := t_ext (t_tok [((41, bs_addr), 1000000000)]) (t_bs 0 <| bs_blnd := 41 |>) (t_orc 7 []) in
   let x := set_bedata (set_becfg x (-2) (mkEmisConfig (1500000000 + 604800) 1000000)) (-2) (mkEmisData 22222 1500000000) in
   let x := set_bedata (set_becfg x (-3) (mkEmisConfig (1500000000 + 604800) 200000)) (-3) (mkEmisData 0 1500010000) in
   let x := set_pb (set_pb x (-2) (mkPoolBal 1500000000 2000000000 0)) (-3) (mkPoolBal 700000000 750000000 0) in
   let? '(n, x) := b_claim (c0 (1500000000 + 12345) 0) x 10 [-2; -3] 11 0 in
   Ok (n, balance (x_tok x) 41 11, balance (x_tok x) 41 bs_addr,
       map (fun p => (bs_edata (x_bs x) !! p, bs_uemis (x_bs x) !! (p, 10))) [-2; -3]))
  = Ok (0, 0, 1000000000,
      [(Some (mkEmisData 82322222 1500012345), Some (mkUserEmis 82322222 0)); (Some (mkEmisData 6700000 1500012345), Some (mkUserEmis 6700000 0))]).
Proof. by vm_compute. Qed.

(** ** emitter/src/backstop_manager.rs and emitter/src/emitter.rs: backstop 20, new backstop 21, its token 43 *)
Definition em_ext last n1 swap dropped : Ext :=
  d_ext [((40, 20), 1000000 * 10000000); ((40, 21), n1 * 10000000)] <| x_em := empty_emitter
    <| em_init := true |> <| em_blnd := 41 |> <| em_backstop := 20 |> <| em_token := 40 |> <| em_last := {[ 20 := last ]} |>
    <| em_swap := swap |> <| em_dropped := dropped |> |>.
Definition show_em (r : res Ext) := let? x := r in Ok (em_backstop (x_em x), em_token (x_em x), em_swap (x_em x)).
Definition sw t := Some (mkSwap 21 43 t).
Example test_execute_queue_swap_backstop :
  show_em (em_queue_swap (c0 12345 50) (em_ext 1000 1000001 None {[ 20 ]}) 21 43) = Ok (20, 40, sw (2678400 + 12345)).
Proof. by vm_compute. Qed.
Example test_execute_queue_swap_backstop_insufficient_funds :
  show_em (em_queue_swap (c0 12345 50) (em_ext 1000 1000000 None {[ 20 ]}) 21 43) = Err (EmitE 1100).
Proof. by vm_compute. Qed.
Example test_execute_queue_swap_backstop_already_exists :
  show_em (em_queue_swap (c0 12345 50) (em_ext 1000 1000001 (Some (mkSwap 22 44 0)) {[ 20 ]}) 21 43) = Err (EmitE 1103).
Proof. by vm_compute. Qed.
Example test_execute_cancel_swap_backstop :
  show_em (em_cancel_swap (c0 12345 50) (em_ext 1000 1000000 (sw (12345 + 1000)) {[ 20 ]})) = Ok (20, 40, None).
Proof. by vm_compute. Qed.
Example test_execute_cancel_swap_backstop_valid_swap :
  show_em (em_cancel_swap (c0 12345 50) (em_ext 1000 1000001 (sw (12345 + 1000)) {[ 20 ]})) = Err (EmitE 1105).
Proof. by vm_compute. Qed.
Example test_execute_cancel_swap_backstop_none_queued :
  show_em (em_cancel_swap (c0 12345 50) (em_ext 1000 1000000 None {[ 20 ]})) = Err (EmitE 1102).
Proof. by vm_compute. Qed.
Example test_execute_swap_backstop :
  (let? x := em_swap_backstop (c0 12345 500) (em_ext 10000 1000001 (sw 12345) {[ 20 ]}) in
   let? s := show_em (Ok x) in
   Ok (s, em_last (x_em x) !! 20, em_last (x_em x) !! 21, balance (x_tok x) 41 20, balance (x_tok x) 41 21))
  = Ok ((21, 43, None), Some 12345, Some 12345, 2345 * 10000000, 0).
Proof. by vm_compute. Qed.
Example test_execute_swap_backstop_not_unlocked :
  show_em (em_swap_backstop (c0 12345 500) (em_ext 10000 1000001 (sw (12345 + 1)) {[ 20 ]})) = Err (EmitE 1104).
Proof. by vm_compute. Qed.
Example test_execute_swap_backstop_no_queue :
  show_em (em_swap_backstop (c0 12345 500) (em_ext 10000 1000001 None {[ 20 ]})) = Err (EmitE 1102).
Proof. by vm_compute. Qed.
Example test_execute_swap_backstop_insufficient_funds :
  show_em (em_swap_backstop (c0 12345 500) (em_ext 10000 1000000 (sw 12345) {[ 20 ]})) = Err (EmitE 1100).
Proof. by vm_compute. Qed.
Example test_distribute :
  (let? '(n, x) := em_execute_distribute (c0 12345 50) (em_ext 1000 0 None ∅) 20 in
   Ok (n, balance (x_tok x) 41 20, em_last (x_em x) !! 20)) = Ok (113450000000, 113450000000, Some 12345).
Proof. by vm_compute. Qed.
Definition drop dropped n :=
  let? x := em_drop (c0 12345 5000000) (em_ext 1000 0 None dropped) [(frodo, 20000000 * 10000000); (samwise, n * 10000000)] in
  Ok (bool_decide (20 ∈ em_dropped (x_em x)), balance (x_tok x) 41 frodo, balance (x_tok x) 41 samwise).
Example test_drop : drop ∅ 30000000 = Ok (true, 20000000 * 10000000, 30000000 * 10000000).
Proof. by vm_compute. Qed.
Example test_drop_already_dropped : drop {[ 20 ]} 30000000 = Err (EmitE 1101).
Proof. by vm_compute. Qed.
Example test_drop_too_large : drop ∅ 30000001 = Err (EmitE 1101).
Proof. by vm_compute. Qed.

(** ** pool-factory/src/test.rs: admin 50 (bombadil), 51 (sauron), oracle 60, backstop 20, BLND 41 *)
Definition f0 : World := mkWorld 0 0 (d_ext [] <| x_fac := empty_factory |>) ∅.
Definition f1 : res World := let? '(_, w) := exec f0 (OExt [] (FInit 20 41)) in Ok w.
Definition deploy adm salt rate mp (w : World) := exec w (ODeploy [adm] adm salt 60 rate mp).
Definition is_pool (w : World) a := fa_is_pool (w_ext w) a.
Example test_pool_factory :
  (let? w := f1 in
   assert! (negb (is_ok (exec w (OExt [] (FInit 20 41))))) else Trap in
   let? '(o1, w) := deploy 50 1 1000000 6 w in
   let? '(o2, w) := deploy 50 2 1000000 6 w in
   match o1, o2 with
   | OutAddr a1, OutAddr a2 =>
       let? p := unwrap (w_pools w !! a1) in
       Ok (ps_admin p, ps_backstop p, ps_config p, ps_blnd p, a1 =? a2, is_pool w a1, is_pool w a2, is_pool w 99)
   | _, _ => Err Trap
   end) = Ok (50, 20, mkPoolConfig 60 1000000 6 6, 41, false, true, true, false).
Proof. by vm_compute. Qed.
Example test_pool_factory_invalid_pool_init_args_backstop_rate : (let? w := f1 in deploy 50 1 10000000 6 w) = Err (FacE 1300).
Proof. by vm_compute. Qed.
Example test_pool_factory_invalid_pool_init_args_max_positions : (let? w := f1 in deploy 50 1 1000000 1 w) = Err (FacE 1300).
Proof. by vm_compute. Qed.
Example test_pool_factory_frontrun_protection :
  (let? w := f1 in
   let? '(o1, w) := deploy 51 1 1000000 6 w in
   let? '(o2, w) := deploy 50 1 1000000 6 w in
   match o1, o2 with OutAddr a1, OutAddr a2 => Ok (a1 =? a2, is_pool w a1, is_pool w a2) | _, _ => Err Trap end) = Ok (false, true, true).
Proof. by vm_compute. Qed.
