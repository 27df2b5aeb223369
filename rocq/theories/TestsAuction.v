(** * Unit tests of pool/src/auctions/*.rs replayed on the model (fidelity checks) *)
From Verif Require Import Base Types Token Emitter Factory Backstop PoolReserve PoolUser PoolHealth
  PoolAuction PoolAdmin World TestsReserve.

(** addresses: oracle 20, underlyings 30, 31, 32, LP token 40, samwise 10, frodo 11, pool -2 *)
Definition t_pcfg := mkPoolConfig 20 1000000 0 4.
Definition rcfg (i dec c l : Z) := t_cfg <| rc_index := i |> <| rc_decimals := dec |> <| rc_c_factor := c |> <| rc_l_factor := l |>.
Definition rdat (dr br last : Z) := t_data <| rd_d_rate := dr |> <| rd_b_rate := br |> <| rd_last_time := last |>.
Fixpoint add_res (i : Z) (l : list (ResConfig * ResData)) (p : PoolSt) : PoolSt :=
  match l with
  | [] => p
  | (c, d) :: l => add_res (i + 1) l (p <| ps_list := ps_list p ++ [30 + i] |> <| ps_rcfg := <[30 + i := c]> (ps_rcfg p) |>
      <| ps_rdata := <[30 + i := d]> (ps_rdata p) |>)
  end.
Definition t_pool (l : list (ResConfig * ResData)) : PoolSt :=
  add_res 0 l (fresh_pool <| ps_init := true |> <| ps_backstop := bs_addr |> <| ps_config := t_pcfg |>).
Definition t_orc (dec : Z) (ps : list Z) : Oracle :=
  mkOracle {[ 20 := dec ]} (list_to_map (zip (map (fun i => (20, i)) [30; 31; 32]) (map (fun p => (p, 12345)) ps))).
Definition t_tok (l : list (Addr * Addr * Z)) : Tok := mkTok (list_to_map l) ∅.
Definition t_bs (tokens : Z) : BackstopSt :=
  empty_backstop <| bs_init := true |> <| bs_token := 40 |> <| bs_lpval := Some (100000000, 2500000) |>
    <| bs_pool := {[ -2 := mkPoolBal tokens tokens 0 ]} |>.
Definition t_ext (tok : Tok) (bs : BackstopSt) (o : Oracle) : Ext :=
  mkExt tok empty_emitter bs (empty_factory <| fa_deployed := {[ -2 ]} |>) o 0 [].
Definition x0 dec ps := t_ext (t_tok []) (t_bs 0) (t_orc dec ps).
Definition c0 (now seq : Z) : Ctx := mkCtx now seq (fun _ => true).
Definition m (l : list (Z * Z)) : gmap Z Z := list_to_map l.
Definition with_pos (u : Addr) (c l : list (Z * Z)) (p : PoolSt) : PoolSt := set_pos p u (mkPositions (m l) (m c) ∅).
Definition show_a {A} (r : res (Auction * A)) := let? '(a, _) := r in Ok (entries (au_bid a), entries (au_lot a), au_block a).

(** ** user_liquidation_auction.rs *)
Definition liq_pool := with_pos 10 [(0, 909100000); (1, 45800000)] [(2, 27500000)]
  (t_pool [(rcfg 0 7 8500000 9000000, rdat 1000000000 1100000000 12345); (rcfg 1 7 7500000 7500000, rdat 1000000000 1200000000 12345);
           (rcfg 2 7 0 7000000, t_data)]).
Example test_create_user_liquidation_auction_normal_scalars :
  show_a (create_user_liq (c0 12345 50) liq_pool (x0 7 [20000000; 40000000; 500000000]) 10 45)
  = Ok ([(32, 12375000)], [(30, 305595329); (31, 15395739)], 51).
Proof. by vm_compute. Qed.
Definition weird_pool dec := with_pos 10 [(0, 89991357639)] [(1, 10595526742)]
  (t_pool [(rcfg 0 7 9000000 9000000, rdat 1000000000 1000206159 12345); (rcfg 1 dec 0 9000000, rdat 1000201748 1000000000 0)]).
Example test_create_user_liquidation_auction_weird_scalar :
  show_a (create_user_liq (c0 12345 50) (weird_pool 7) (x0 14 [14185012444444; 102611669700969]) 10 69)
  = Ok ([(31, 7310913452)], [(30, 57911010751)], 51).
Proof. by vm_compute. Qed.
Example test_create_user_liquidation_auction_full_liquidation :
  show_a (create_user_liq (c0 12345 50) (with_pos 10 [(0, 80000000)] [(1, 100000000)] (weird_pool 6)) (x0 5 [100000; 100000]) 10 100)
  = Ok ([(31, 100000000)], [(30, 80000000)], 51).
Proof. by vm_compute. Qed.
Example test_create_user_liquidation_auction_bad_full_liq :
  show_a (create_user_liq (c0 12345 50) liq_pool (x0 8 [200000000; 400000000; 5000000000]) 10 100) = Err (PoolE 1213).
Proof. by vm_compute. Qed.
Example test_create_user_liquidation_auction_too_large :
  show_a (create_user_liq (c0 12345 50) liq_pool (x0 6 [2000000; 4000000; 50000000]) 10 46) = Err (PoolE 1213).
Proof. by vm_compute. Qed.
Example test_create_user_liquidation_auction_too_small :
  show_a (create_user_liq (c0 12345 50) liq_pool (x0 5 [200000; 400000; 5000000]) 10 25) = Err (PoolE 1214).
Proof. by vm_compute. Qed.
Definition liq_fill := fill_user_liq (c0 13345 376) liq_pool (pool_load liq_pool) (mkAuction (m [(32, 12375000)]) (m [(30, 305595329); (31, 15395739)]) 176) 10 11 no_positions.
Definition show_p (pos : Positions) := (entries (po_coll pos), entries (po_liab pos), entries (po_sup pos)).
Example test_fill_user_liquidation_auction :
  (let? '(p, ch, fpos) := liq_fill in Ok (show_p fpos, show_p (get_pos p 10)))
  = Ok (([(0, 305595329); (1, 15395739)], [(2, 12375000)], []),
        ([(0, 909100000 - 305595329); (1, 45800000 - 15395739)], [(2, 27500000 - 12375000)], [])).
Proof. by vm_compute. Qed.
Example test_fill_user_liquidation_auction_hits_target :
  (let? '(p, ch, fpos) := liq_fill in
   let? '(d, _) := position_data 13345 p (x0 7 [20000000; 40000000; 500000000]) ch (get_pos p 10) in as_hf d) = Ok 11458977.
Proof. by vm_compute. Qed.

(** ** auction.rs: scale_auction *)
Definition sc seq (v : Z) pct := let? '(f, r) := scale_auction seq (mkAuction (m [(30, v)]) (m [(31, v)]) 1000) pct in
  Ok (entries (au_bid f), entries (au_lot f), match r with Some r => Some (entries (au_bid r), entries (au_lot r)) | None => None end).
Example test_scale_auction_100_fill_pct :
  sc 1000 1000000000 100 = Ok ([(30, 1000000000)], [], None) /\
  sc 1100 1000000000 100 = Ok ([(30, 1000000000)], [(31, 500000000)], None) /\
  sc 1200 1000000000 100 = Ok ([(30, 1000000000)], [(31, 1000000000)], None) /\
  sc 1300 1000000000 100 = Ok ([(30, 500000000)], [(31, 1000000000)], None) /\
  sc 1400 1000000000 100 = Ok ([], [(31, 1000000000)], None).
Proof. by vm_compute. Qed.
Example test_scale_auction_not_100_fill_pct :
  sc 1000 250000005 50 = Ok ([(30, 125000003)], [], Some ([(30, 125000002)], [(31, 125000003)])) /\
  sc 1100 250000005 60 = Ok ([(30, 150000003)], [(31, 75000001)], Some ([(30, 100000002)], [(31, 100000002)])) /\
  sc 1300 250000005 60 = Ok ([(30, 75000002)], [(31, 150000003)], Some ([(30, 100000002)], [(31, 100000002)])) /\
  sc 1400 250000005 50 = Ok ([], [(31, 125000002)], Some ([(30, 125000002)], [(31, 125000003)])).
Proof. by vm_compute. Qed.
Example test_scale_auction_fill_percentage : sc 1000 1000000000 0 = Err (PoolE 1200) /\ sc 1000 1000000000 101 = Err (PoolE 1200).
Proof. by vm_compute. Qed.

(** ** bad_debt_auction.rs *)
Definition bd_pool last := with_pos bs_addr [] [(0, 100000000); (1, 25000000)]
  (t_pool [(t_cfg, rdat 1100000000 1000000000 last); (rcfg 1 7 7500000 7500000, rdat 1200000000 1000000000 last);
           (rcfg 2 7 7500000 7500000, rdat 1000000000 1100000000 last)]).
Definition xb tokens := t_ext (t_tok [((40, bs_addr), tokens)]) (t_bs tokens) (t_orc 7 [20000000; 40000000; 1000000000]).
Example test_create_bad_debt_auction : show_a (create_bad_debt (c0 12345 50) (-2) (bd_pool 12345) (xb 500000000000))
  = Ok ([(30, 100000000); (31, 25000000)], [(40, 380800000)], 51).
Proof. by vm_compute. Qed.
Example test_create_bad_debt_auction_max_balance : show_a (create_bad_debt (c0 12345 50) (-2) (bd_pool 12345) (xb 380000000))
  = Ok ([(30, 100000000); (31, 25000000)], [(40, 380000000)], 51).
Proof. by vm_compute. Qed.
Example test_create_bad_debt_auction_applies_interest : show_a (create_bad_debt (c0 12345 150) (-2) (bd_pool 11845) (xb 500000000000))
  = Ok ([(30, 100000000); (31, 25000000)], [(40, 380801894)], 151).
Proof. by vm_compute. Qed.
Example test_fill_bad_debt_auction_leftover_debt_small_backstop_burns :
  (let? '((p, ch, fpos), x) := fill_bad_debt (c0 12345 51) (-2) (bd_pool 12345) (xb 20000000000) (pool_load (bd_pool 12345))
     (mkAuction (m [(30, 75000000); (31, 18750000)]) (m [(40, 476000000)]) 51) 10 no_positions in
   Ok (show_p fpos, show_p (get_pos p bs_addr), balance (x_tok x) 40 bs_addr, balance (x_tok x) 40 10))
  = Ok (([], [(0, 75000000); (1, 18750000)], []), ([], [], []), 20000000000 - 476000000, 476000000).
Proof. by vm_compute. Qed.

(** ** backstop_interest_auction.rs *)
Definition int_pool := t_pool
  [(t_cfg, mkResData 1000000000 1000000000 1000000000 10000000000 7500000000 11845 1000000000);
   (rcfg 1 7 7500000 7500000, mkResData 1000000000 1000000000 1000000000 2500000000 1875000000 11845 250000000);
   (rcfg 2 7 7500000 7500000, t_data <| rd_last_time := 11845 |>)].
Example test_create_interest_auction_applies_interest :
  show_a (create_interest (c0 12345 150) (-2) int_pool (xb 500000000) [30; 31; 32])
  = Ok ([(40, 3360010348)], [(30, 1000000714); (31, 250000178); (32, 71)], 151).
Proof. by vm_compute. Qed.
Definition int_fill_pool := t_pool
  [(t_cfg, mkResData 1000000000 1100000000 1000000000 2000000000000 1000000000000 12345 1000000000);
   (rcfg 1 7 7500000 7500000, mkResData 1000000000 1100000000 1000000000 1000000000 750000000 12345 300000000)].
Example test_fill_interest_auction :
  (let? '(ch, x) := fill_interest (c0 12345 301) (-2) int_fill_pool
     (t_ext (t_tok [((40, 10), 1000000000); ((40, bs_addr), 500000000); ((30, -2), 1000000000000); ((31, -2), 1000000000000)])
        (t_bs 500000000) (t_orc 7 [])) (pool_load int_fill_pool) (mkAuction (m [(40, 750000000)]) (m [(30, 1000000000); (31, 250000000)]) 51) 10 in
   let? p := store_cached int_fill_pool ch in
   Ok (balance (x_tok x) 40 10, balance (x_tok x) 40 bs_addr, balance (x_tok x) 30 10, balance (x_tok x) 31 10,
       match ps_rdata p !! 30 with Some d => rd_credit d | None => -1 end, match ps_rdata p !! 31 with Some d => rd_credit d | None => -1 end))
  = Ok (250000000, 500000000 + 750000000, 1000000000, 250000000, 0, 50000000).
Proof. by vm_compute. Qed.
