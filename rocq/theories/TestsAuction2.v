(** * The remaining unit tests of pool/src/auctions/*.rs replayed on the model (fidelity checks)

    The names are those of the tests in the code; inputs and expected values are copied from them. *)
From Verif Require Import Base Types Token Emitter Factory Backstop PoolReserve PoolUser PoolHealth
  PoolAuction PoolAdmin World TestsReserve TestsAuction.

Definition put_auct (t : Z) (u : Addr) (a : Auction) (p : PoolSt) : PoolSt := set_auction p t u a.
Definition err_of {A} (r : res A) : option err := match r with Err e => Some e | Ok _ => None end.

(** ** auction.rs *)
Example test_create_bad_debt_auction_stored :
  (let? '(_, p) := create_bad_debt (c0 12345 50) (-2) (bd_pool 12345) (xb 500000000000) in Ok (has_auction p 1 bs_addr)) = Ok true.
Proof. by vm_compute. Qed.
Definition int_pool' := t_pool
  [(t_cfg, mkResData 1000000000 1000000000 1000000000 10000000000 7500000000 12345 1000000000);
   (rcfg 1 7 7500000 7500000, mkResData 1000000000 1000000000 1000000000 2500000000 1875000000 12345 250000000);
   (rcfg 1 7 7500000 7500000, rdat 1000000000 1100000000 12345)].
Example test_create_interest_auction_stored :
  (let? '(_, p) := create_interest (c0 12345 50) (-2) int_pool' (xb 500000000) [30; 31] in Ok (has_auction p 2 bs_addr)) = Ok true.
Proof. by vm_compute. Qed.
Definition px50 := x0 7 [20000000; 40000000; 500000000].
Example test_create_liquidation :
  (let? '(_, p) := create_liquidation (c0 12345 50) (-2) liq_pool px50 10 45 in Ok (has_auction p 0 10)) = Ok true.
Proof. by vm_compute. Qed.
Definition move_pos (u : Addr) (p : PoolSt) : PoolSt := set_pos p u (get_pos p 10).
Example test_create_liquidation_for_pool :
  err_of (create_liquidation (c0 12345 50) (-2) (move_pos (-2) liq_pool) px50 (-2) 45) = Some (PoolE 1211).
Proof. by vm_compute. Qed.
Example test_create_liquidation_for_backstop :
  err_of (create_liquidation (c0 12345 50) (-2) (move_pos bs_addr liq_pool) px50 bs_addr 45) = Some (PoolE 1211).
Proof. by vm_compute. Qed.
Definition empty_auct (b : Z) := mkAuction ∅ ∅ b.
Example test_delete_user_liquidation :
  (let? p := delete_liquidation (put_auct 0 10 (empty_auct 100) fresh_pool) 10 in Ok (has_auction p 0 10)) = Ok false.
Proof. by vm_compute. Qed.
Example test_delete_user_liquidation_does_not_exist : err_of (delete_liquidation fresh_pool 10) = Some (PoolE 1200).
Proof. by vm_compute. Qed.

(** the three reserves of the fill tests: default data, indexes 0, 1, 2 *)
Definition f_pool (c l : list (Z * Z)) := with_pos 10 c l (t_pool [(rcfg 0 7 7500000 7500000, t_data); (rcfg 1 7 7500000 7500000, t_data); (rcfg 2 7 7500000 7500000, t_data)]).
Definition f_auct := mkAuction (m [(32, 12375000)]) (m [(30, 305595329); (31, 15395739)]) 176.
Definition f1 := put_auct 0 10 f_auct (f_pool [(0, 909100000); (1, 45800000)] [(2, 27500000)]).
Definition show_au (p : PoolSt) := match ps_auct p !! (0, 10) with Some a => Some (entries (au_bid a), entries (au_lot a), au_block a) | None => None end.
Definition fill1 (who pct : Z) := fill (c0 13345 376) (-2) f1 (x0 7 []) (pool_load f1) 0 10 who (get_pos f1 who) pct.
Example test_fill :
  (let? '((p, ch, fpos), _) := fill1 11 100 in Ok (show_au p, show_p fpos, show_p (get_pos p 10)))
  = Ok (None, ([(0, 305595329); (1, 15395739)], [(2, 12375000)], []),
        ([(0, 909100000 - 305595329); (1, 45800000 - 15395739)], [(2, 27500000 - 12375000)], [])).
Proof. by vm_compute. Qed.
Example test_partial_fill :
  (let? '((p, ch, fpos), _) := fill1 11 25 in Ok (show_au p)) = Ok (Some ([(32, 9281250)], [(30, 229196497); (31, 11546805)], 176)).
Proof. by vm_compute. Qed.
Example test_fill_fails_pct : err_of (fill1 11 101) = Some (PoolE 1200) /\ err_of (fill1 11 0) = Some (PoolE 1200).
Proof. by vm_compute. Qed.
Example test_fill_liquidation_same_address : err_of (fill1 10 100) = Some (PoolE 1211).
Proof. by vm_compute. Qed.
Definition f2 := put_auct 0 10 (mkAuction (m [(32, 1000000000)]) (m [(30, 100000000); (31, 10000000)]) 176)
  (f_pool [(0, 300000000); (1, 30000000)] [(2, 2000000000)]).
Definition fill2 (now seq pct : Z) (s : Fl) : res Fl :=
  let '(p, ch, fpos) := s in
  let? '((p, ch, fpos), _) := fill (c0 now seq) (-2) p (x0 7 []) ch 0 10 11 fpos pct in
  let? p := store_cached p ch in
  Ok (set_pos p 11 fpos, pool_load (set_pos p 11 fpos), fpos).
Definition show_f (r : res Fl) := let? '(p, _, fpos) := r in Ok (show_au p, show_p fpos, show_p (get_pos p 10)).
Definition start2 : Fl := (f2, pool_load f2, no_positions).
Example test_partial_partial_full_fill :
  let r1 := fill2 12845 276 25 start2 in
  let r2 := let? s := r1 in fill2 13345 376 67 s in
  let r3 := let? s := r2 in fill2 13845 476 100 s in
  show_f r1 = Ok (Some ([(32, 750000000)], [(30, 75000000); (31, 7500000)], 176), ([(0, 12500000); (1, 1250000)], [(2, 250000000)], []),
                  ([(0, 300000000 - 12500000); (1, 30000000 - 1250000)], [(2, 2000000000 - 250000000)], [])) /\
  (let? '(a, _, _) := show_f r2 in Ok a) = Ok (Some ([(32, 247500000)], [(30, 24750000); (31, 2475000)], 176)) /\
  (let? '(a, _, l) := show_f r3 in Ok (a, l)) = Ok (None,
     ([(0, 300000000 - 12500000 - 50250000 - 24750000); (1, 30000000 - 1250000 - 5025000 - 2475000)],
      [(2, 2000000000 - 250000000 - 502500000 - 123750000)], [])).
Proof. vm_compute. done. Qed.

(** ** bad_debt_auction.rs *)
Example test_create_bad_debt_auction_already_in_progress :
  err_of (create_bad_debt (c0 12345 100) (-2) (put_auct 1 bs_addr (empty_auct 50) (bd_pool 12345)) (xb 500000000000)) = Some (PoolE 1212).
Proof. by vm_compute. Qed.
Definition xb14 tokens := t_ext (t_tok [((40, bs_addr), tokens)]) (t_bs tokens) (t_orc 14 [200000000000000; 400000000000000; 10000000000000000]).
Example test_create_bad_debt_auction_oracle_14_decimals :
  show_a (create_bad_debt (c0 12345 50) (-2) (bd_pool 12345) (xb14 500000000000)) = Ok ([(30, 100000000); (31, 25000000)], [(40, 380800000)], 51).
Proof. by vm_compute. Qed.
Definition bd_fill (tokens filler : Z) (bid : list (Z * Z)) :=
  let? '((p, ch, fpos), x) := fill_bad_debt (c0 12345 51) (-2) (bd_pool 12345) (xb tokens) (pool_load (bd_pool 12345))
     (mkAuction (m bid) (m [(40, 476000000)]) 51) filler no_positions in
  Ok (show_p fpos, show_p (get_pos p bs_addr), balance (x_tok x) 40 bs_addr, balance (x_tok x) 40 filler).
Example test_fill_bad_debt_auction :
  bd_fill 500000000000 10 [(30, 100000000); (31, 25000000)]
  = Ok (([], [(0, 100000000); (1, 25000000)], []), ([], [], []), 500000000000 - 476000000, 476000000).
Proof. by vm_compute. Qed.
Example test_fill_bad_debt_auction_leftover_debt_sufficient_balance :
  bd_fill 25000000000 10 [(30, 75000000); (31, 18750000)]
  = Ok (([], [(0, 75000000); (1, 18750000)], []), ([], [(0, 25000000); (1, 6250000)], []), 25000000000 - 476000000, 476000000).
Proof. by vm_compute. Qed.
Example test_fill_bad_debt_auction_with_backstop :
  err_of (bd_fill 500000000000 bs_addr [(30, 100000000); (31, 25000000)]) = Some (PoolE 1200).
Proof. by vm_compute. Qed.

(** ** backstop_interest_auction.rs *)
Example test_create_interest_auction_already_in_progress :
  err_of (create_interest (c0 12345 100) (-2) (put_auct 2 bs_addr (empty_auct 50) int_pool') (xb 500000000) []) = Some (PoolE 1212).
Proof. by vm_compute. Qed.
Example test_create_interest_auction_no_reserve :
  is_Some (err_of (create_interest (c0 12345 100) (-2) (t_pool []) (xb 500000000) [99])).
Proof. vm_compute. by eexists. Qed.
Example test_create_interest_auction_under_threshold :
  err_of (create_interest (c0 12345 50) (-2) int_pool' (xb 500000000) []) = Some (PoolE 1215).
Proof. by vm_compute. Qed.
Example test_create_interest_auction :
  show_a (create_interest (c0 12345 50) (-2) int_pool' (xb 500000000) [30; 31])
  = Ok ([(40, 3360000000)], [(30, 1000000000); (31, 250000000)], 51).
Proof. by vm_compute. Qed.
Example test_create_interest_auction_14_decimal_oracle :
  show_a (create_interest (c0 12345 50) (-2) int_pool' (xb14 500000000) [30; 31])
  = Ok ([(40, 3360000000)], [(30, 1000000000); (31, 250000000)], 51).
Proof. by vm_compute. Qed.
Example test_fill_interest_auction_with_backstop :
  err_of (fill_interest (c0 12345 301) (-2) int_fill_pool (xb 500000000) (pool_load int_fill_pool)
     (mkAuction (m [(40, 950000000)]) (m [(30, 1000000000); (31, 250000000)]) 51) bs_addr) = Some (PoolE 1200).
Proof. by vm_compute. Qed.

(** ** user_liquidation_auction.rs *)
Example test_create_user_liquidation_auction_already_in_progress :
  err_of (create_user_liq (c0 12345 50) (put_auct 0 10 (empty_auct 50) liq_pool) px50 10 50) = Some (PoolE 1212).
Proof. by vm_compute. Qed.
