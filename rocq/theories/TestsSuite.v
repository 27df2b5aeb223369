(** * The integration tests of test-suites/tests/*.rs replayed on the whole model (fidelity checks)

    The histories, expected values, tolerances and events are those of the tests; the names too.
    Each test is one evaluation: it runs the history, checks the assertions on the way (any failed
    assertion makes the result [Err]) and returns the events the test looks at.

    Three things are done by the environment instead of by the code under test.  The Comet pool is
    not part of the model: a [join_pool] is the mint of the LP tokens, the arrival of the two assets
    and the new supply.  The mock oracle stamps a stable price with the current time: here with a
    time far ahead, which the staleness check treats alike.  The tests mock every signature: where
    one of a contract is used, [as_signed] runs the entry point with that signature. *)
From Verif Require Import Base Types Token Emitter Factory Backstop PoolReserve PoolUser PoolHealth
  PoolAuction PoolSubmit PoolEmis PoolAdmin World Events.

(** ** The fixture: test-suites/src/test_fixture.rs, setup.rs, pool.rs *)
Notation BLND := 100 (only parsing).
Notation USDC := 101 (only parsing).
Notation LP := 102 (only parsing).
Notation WETH := 105 (only parsing).
Notation XLM := 106 (only parsing).
Notation STABLE := 107 (only parsing).
Notation orcl := 50 (only parsing).
Notation bombadil := 10 (only parsing).
Notation frodo := 11 (only parsing).
Notation sam := 12 (only parsing).
Notation sauron := 13 (only parsing).
Notation pippen := 14 (only parsing).
Notation whale := 15 (only parsing).
Notation new_backstop := 60 (only parsing).
Notation somebody := 61 (only parsing).
Notation day := 86400 (only parsing).
Definition e6 := 1000000.
Definition e7 := 10000000.
Definition e9 := 1000000000.
Definition prices (eth xlm : Z) : Oracle := mkOracle (list_to_map [(orcl, 7)])
  (list_to_map [((orcl, WETH), (eth, 3000000000)); ((orcl, USDC), (10000000, 3000000000));
                ((orcl, XLM), (xlm, 3000000000)); ((orcl, STABLE), (10000000, 3000000000))]).
Definition w00 : World := genesis 1441065600 150 (mkTok ∅ ∅) (prices 20000000000 1000000) 0.
Definition mint (tok u n : Z) : Op := OExt [] (TMint tok u n).
(** [lp.join_pool]: [n] shares for [u], paid with 10 BLND and 0.25 USDC each *)
Definition join (supply n u : Z) : list Op :=
  [mint LP u n; mint BLND LP (n * 10); mint USDC LP (n / 4); OLpSupply (supply + n)].
Definition jump (dt : Z) : Op := OTick dt 0.
Definition jump_seq (dt : Z) : Op := OTick dt (dt / 5).
Definition POOL : Addr := Eval vm_compute in dep_addr bombadil 7.

(** test_fixture.rs 65-172 *)
Definition ops_create : list Op :=
  join 0 (100 * e7) bombadil ++
  [OExt [] (EInit BLND bs_addr LP);
   OExt [] (BInit LP em_addr USDC BLND fac_addr [(bombadil, 10000000 * e7); (frodo, 40000000 * e7)]);
   OExt [] (FInit bs_addr BLND); OExt [] BDrop; jump (7 * day)].
(** pool.rs 8-22 *)
Definition dflt : ResConfig := mkResConfig 0 7 7500000 7500000 7500000 9500000 100000 500000 5000000 15000000 20.
Definition stable_cfg := mkResConfig 0 6 9000000 9500000 8500000 9500000 100000 500000 5000000 15000000 20.
Definition xlm_cfg := mkResConfig 0 7 7500000 7500000 5000000 9500000 100000 500000 5000000 15000000 20.
Definition weth_cfg := mkResConfig 0 9 8000000 8000000 7000000 9500000 100000 500000 5000000 15000000 20.
Definition create_pool (rate mp : Z) : Op := ODeploy [bombadil] bombadil 7 orcl rate mp.
Definition create_reserve (a : Addr) (c : ResConfig) : list Op :=
  [OPool [bombadil] POOL (PQueueRes a c); OPool [] POOL (PSetRes a)].
Definition reqs (l : list (Z * Z * Z)) : list Request := map (fun e => mkReq e.1.1 e.1.2 e.2) l.
Definition submit (u : Addr) (l : list (Z * Z * Z)) : Op := OPool [u] POOL (PSubmit u u u (reqs l)).
(** setup.rs 12-58, test_emitter.rs 17-56 *)
Definition ops_pool (emis : list EmisMeta) : list Op := ops_create ++
  [mint STABLE frodo (100000 * e6); mint XLM frodo (1000000 * e7); mint WETH frodo (100 * e9);
   mint BLND frodo (70000000 * e7); mint USDC frodo (2600000 * e7)] ++
  join (100 * e7) (10000000 * e7) frodo ++ [create_pool 1000000 6] ++
  create_reserve STABLE stable_cfg ++ create_reserve XLM xlm_cfg ++ create_reserve WETH weth_cfg ++
  [OPool [bombadil] POOL (PSetEmis emis)].
(** setup.rs 60-139 *)
Definition ops_fixture : list Op := ops_pool [mkEmisMeta 0 0 6000000; mkEmisMeta 1 1 4000000] ++
  [OExt [frodo] (BDeposit frodo POOL (50000 * e7)); OExt [] BUpdTkn; OExt [] (BAddReward POOL somebody);
   OPool [bombadil] POOL (PSetStatus 3); OPool [] POOL PUpdateStatus;
   OExt [] EDistribute; OExt [] BGulp; OPool [] POOL PGulp; jump 60;
   submit frodo [(2, STABLE, 10000 * e6); (4, STABLE, 8000 * e6)];
   submit frodo [(2, WETH, 10 * e9); (4, WETH, 5 * e9)];
   submit frodo [(2, XLM, 100000 * e7); (4, XLM, 65000 * e7)]; jump 3600].

(** ** Running a test *)
Definition go (w : World) (o : Op) : res World := let? '(_, w) := exec w o in Ok w.
Fixpoint gos (w : World) (l : list Op) : res World :=
  match l with [] => Ok w | o :: l => let? w := go w o in gos w l end.
Definition gopos (w : World) (o : Op) : res (Positions * World) :=
  let? '(out, w) := exec w o in match out with OutPos p => Ok (p, w) | _ => Err Trap end.
Definition goauct (w : World) (o : Op) : res (Auction * World) :=
  let? '(out, w) := exec w o in match out with OutAuction a => Ok (a, w) | _ => Err Trap end.
Definition goz (w : World) (o : Op) : res (Z * World) :=
  let? '(out, w) := exec w o in match out with OutZ z => Ok (z, w) | _ => Err Trap end.
Definition fails (w : World) (o : Op) : bool := match exec w o with Err _ => true | Ok _ => false end.
Definition fails_with (w : World) (o : Op) (code : Z) : bool :=
  match exec w o with Err (PoolE c) | Err (BackE c) | Err (EmitE c) => c =? code | _ => false end.
Definition ret_err {A} (r : res A) : option err := match r with Err e => Some e | Ok _ => None end.
Definition as_signed (w : World) (sg : list Addr) (xo : XOp) : res World :=
  let? '(_, x) := x_exec (ctx w sg) (w_ext w) xo in Ok (w <| w_ext := x |>).
Definition bal (w : World) (tok a : Addr) : Z := balance (x_tok (w_ext w)) tok a.
Definition near (a b d : Z) : bool := Z.abs (a - b) <=? d.
Definition pl (w : World) : PoolSt := default fresh_pool (w_pools w !! POOL).
Definition rdata (w : World) (r : Addr) : res ResData := unwrap (ps_rdata (pl w) !! r).
Definition rconf (w : World) (r : Addr) : res ResConfig := unwrap (ps_rcfg (pl w) !! r).
Definition same_auct (a b : Auction) : bool :=
  bool_decide (map_to_list (au_bid a) = map_to_list (au_bid b)) &&
  bool_decide (map_to_list (au_lot a) = map_to_list (au_lot b)) && (au_block a =? au_block b).
Definition is_new_auct (t : Z) (a : Auction) (es : list Event) : bool :=
  match es with [VNewAuction p t' b] => (p =? POOL) && (t' =? t) && same_auct a b | _ => false end.
Definition is_new_liq (u : Addr) (a : Auction) (es : list Event) : bool :=
  match es with [VNewLiq p u' b] => (p =? POOL) && (u' =? u) && same_auct a b | _ => false end.
Notation "'check' b 'in' k" := (if b then k else Err Trap) (at level 200, b at level 100, k at level 200, right associativity).

(** what a test returns: events published and expected, side by side *)
Definition test : Type := res (list (list Event * list Event)).
Definition passes (t : test) : Prop :=
  match t with Ok l => foldr (fun e P => e.1 = e.2 /\ P) True l | Err _ => False end.

(** ** setup.rs 152-270 *)
Example test_create_fixture_with_data :
  (let? w := gos w00 ops_fixture in
   let? cfg := unwrap (ps_ecfg (pl w) !! 0) in
   let? dat := unwrap (ps_edata (pl w) !! 0) in
   Ok ([bal w LP bs_addr; bal w BLND bombadil], [bal w STABLE POOL; bal w XLM POOL; bal w WETH POOL],
       [bal w STABLE frodo; bal w XLM frodo; bal w WETH frodo],
       (w_now w - ed_last dat, ed_index dat, ec_eps cfg, ec_exp cfg - w_now w)))
  = Ok ([50000 * e7; 10000000 * e7], [2000 * e6; 35000 * e7; 5 * e9], [98000 * e6; 965000 * e7; 95 * e9],
        (61 * 60, 0, 1800000, 7 * day - 61 * 60)).
Proof. by vm_compute. Qed.

(** ** test_pool.rs 18-521 *)
Definition pool_user : test :=
  let? w := gos w00 (ops_fixture ++ [mint XLM sam (10000 * e7); mint WETH sam e9]) in
  let pool_xlm := bal w XLM POOL in
  let pool_weth := bal w WETH POOL in
  (* supply 0.5 WETH *)
  let half := 500000000 in
  let o1 := submit sam [(0, WETH, half)] in
  let? '(p, w1) := gopos w o1 in
  let? r := rdata w1 WETH in
  let? b1 := fdiv_floor half (rd_b_rate r) SCALAR_9 in
  check (bal w1 WETH sam =? e9 - half) && (bal w1 WETH POOL =? pool_weth + half) && near (getz (po_sup p) 2) b1 10 in
  let ev1 := events w o1 in
  let sup1 := getz (po_sup p) 2 in
  (* a day later, withdraw 0.5 WETH *)
  let? w1 := go w1 (jump day) in
  let o2 := submit sam [(1, WETH, half)] in
  let? '(p, w2) := gopos w1 o2 in
  let? r := rdata w2 WETH in
  let? b2 := fdiv_ceil half (rd_b_rate r) SCALAR_9 in
  check (bal w2 WETH sam =? e9) && (bal w2 WETH POOL =? pool_weth) && near (getz (po_sup p) 2) (b1 - b2) 10 && negb (b1 - b2 =? 0) in
  let ev2 := events w1 o2 in
  (* supply 5000 XLM as collateral *)
  let o3 := submit sam [(2, XLM, 5000 * e7)] in
  let? '(p, w3) := gopos w2 o3 in
  let? r := rdata w3 XLM in
  let? c := fdiv_floor (5000 * e7) (rd_b_rate r) SCALAR_9 in
  check (bal w3 XLM sam =? 5000 * e7) && (bal w3 XLM POOL =? pool_xlm + 5000 * e7) && near (getz (po_coll p) 1) c 10 in
  let ev3 := events w2 o3 in
  (* borrow 0.1 WETH *)
  let tenth := 100000000 in
  let o4 := submit sam [(4, WETH, tenth)] in
  let? '(p, w4) := gopos w3 o4 in
  let? r := rdata w4 WETH in
  let? d := fdiv_ceil tenth (rd_d_rate r) SCALAR_9 in
  check (bal w4 WETH sam =? e9 + tenth) && (bal w4 WETH POOL =? pool_weth - tenth) && (getz (po_liab p) 2 =? d) in
  let ev4 := events w3 o4 in
  (* six days later: emissions, then everything is returned *)
  let? w5 := gos w4 [jump (6 * day); OExt [] EDistribute; OExt [] BGulp; OPool [] POOL PGulp] in
  let o6 := submit sam [(3, XLM, 5010 * e7); (5, WETH, 110000000)] in
  let? '(p, w6) := gopos w5 o6 in
  let? r := rdata w6 XLM in
  let? est_xlm := fmul_floor c (rd_b_rate r) SCALAR_9 in
  let? r := rdata w6 WETH in
  let? est_weth := fmul_ceil d (rd_d_rate r) SCALAR_9 in
  check near (bal w6 XLM sam) (5000 * e7 + est_xlm) 10 && near (bal w6 XLM POOL) (pool_xlm + 5000 * e7 - est_xlm) 10
        && bool_decide (map_to_list (po_coll p) = []) && bool_decide (map_to_list (po_liab p) = [])
        && (bal w6 WETH sam =? e9 + tenth - est_weth) && near (bal w6 WETH POOL) (pool_weth - tenth + est_weth) 10 in
  let ev6 := events w5 o6 in
  (* claim *)
  let o7 := OPool [sam] POOL (PClaim sam [3] sam) in
  let? '(n, w7) := goz w6 o7 in
  check (n =? 29403113155) && (bal w7 BLND sam =? bal w6 BLND sam + n) in
  Ok [(ev1, [VSupply POOL WETH sam half sup1]); (ev2, [VWithdraw POOL WETH sam half b2]);
      (ev3, [VSupplyColl POOL XLM sam (5000 * e7) c]); (ev4, [VBorrow POOL WETH sam tenth d]);
      (ev6, [VWithdrawColl POOL XLM sam est_xlm c; VRepay POOL WETH sam est_weth d]);
      (events w6 o7, [VClaim POOL sam [3] 29403113155])].
Example test_pool_user : passes pool_user. Proof. vm_compute. tauto. Qed.

(** ** test_pool.rs 524-897 *)
Notation new_admin := 62 (only parsing).
Definition pool_config : test :=
  let? w := gos w00 ops_fixture in
  check fails w (OPool [somebody] POOL (PInit somebody somebody 10000 4 somebody somebody)) in
  let o1 := OPool [bombadil] POOL (PUpdatePool 500000 6) in
  let? w1 := go w o1 in
  check (pc_bstop_rate (ps_config (pl w1)) =? 500000) in
  (* a new reserve *)
  let c1 := dflt <| rc_l_factor := 5000000 |> <| rc_c_factor := 2000000 |> in
  let o2 := OPool [bombadil] POOL (PQueueRes BLND c1) in
  let? w2 := gos w1 [o2; jump 604800] in
  let o3 := OPool [] POOL (PSetRes BLND) in
  let? w3 := go w2 o3 in
  let? c := rconf w3 BLND in
  check (rc_l_factor c =? 5000000) && (rc_c_factor c =? 2000000) && (rc_index c =? 3) in
  (* and its update *)
  let c2 := c1 <| rc_c_factor := 0 |> in
  let? w4 := gos w3 [OPool [bombadil] POOL (PQueueRes BLND c2); jump 604800] in
  let? w5 := go w4 o3 in
  let? c := rconf w5 BLND in
  check (rc_l_factor c =? 5000000) && (rc_c_factor c =? 0) && (rc_index c =? 3) in
  (* a new administrator: both sign *)
  let o6 := OPool [bombadil; new_admin] POOL (PSetAdmin new_admin) in
  check fails w5 (OPool [bombadil] POOL (PSetAdmin new_admin)) && fails w5 (OPool [new_admin] POOL (PSetAdmin new_admin)) in
  let? w6 := go w5 o6 in
  let o7 := OPool [new_admin] POOL (PSetStatus 2) in
  let? w7 := go w6 o7 in
  check (pc_status (ps_config (pl w7)) =? 2) && fails w6 (OPool [bombadil] POOL (PSetStatus 2)) in
  let o8 := OPool [new_admin] POOL (PSetStatus 0) in
  let? w8 := go w7 o8 in
  check (pc_status (ps_config (pl w8)) =? 0) in
  (* half of the backstop queues, and changes its mind *)
  let? w9 := go w8 (OExt [frodo] (BQueue frodo POOL (25000 * e7))) in
  let oup := OPool [] POOL PUpdateStatus in
  let? w10 := go w9 oup in
  check (pc_status (ps_config (pl w10)) =? 3) in
  let? w11 := go w10 (OExt [frodo] (BDequeue frodo POOL (25000 * e7))) in
  let? w12 := go w11 oup in
  check (pc_status (ps_config (pl w12)) =? 1) in
  let? w13 := go w12 (OPool [new_admin] POOL (PSetEmis [mkEmisMeta 0 0 4000000; mkEmisMeta 1 1 4000000; mkEmisMeta 3 1 2000000])) in
  check bool_decide (entries (ps_pemis (pl w13)) = [(0, 4000000); (3, 4000000); (7, 2000000)]) in
  Ok [(events w o1, [VUpdatePool POOL bombadil 500000 6]); (events w2 o3, [VSetRes POOL BLND 3]);
      (events w4 o3, [VSetRes POOL BLND 3]); (events w5 o6, [VSetAdmin POOL bombadil new_admin]);
      (events w6 o7, [VStatus POOL (Some new_admin) 2]); (events w7 o8, [VStatus POOL (Some new_admin) 0]);
      (events w9 oup, [VStatus POOL None 3]); (events w11 oup, [VStatus POOL None 1])].
Example test_pool_config : passes pool_config. Proof. vm_compute. tauto. Qed.

(** ** test_backstop.rs 17-495 *)
Definition backstop_test : test :=
  let? w := gos w00 ops_fixture in
  check fails w (OExt [somebody] (BInit somebody somebody somebody somebody somebody [])) && (bs_token (x_bs (w_ext w)) =? LP) in
  let? w := gos w (join (10000100 * e7) (12500 * e7) sam ++ join (10012600 * e7) (5000 * e7) frodo) in
  let fr := bal w LP frodo in
  let bb := bal w LP bs_addr in
  check (bal w LP sam =? 12500 * e7) in
  let o1 := OExt [sam] (BDeposit sam POOL (12500 * e7)) in
  let? '(n, w1) := goz w o1 in
  check (n =? 12500 * e7) && (bal w1 LP sam =? 0) && (bal w1 LP bs_addr =? bb + 12500 * e7) in
  let? w1 := go w1 (jump (7 * day - 3600)) in
  let d := OExt [POOL; frodo] (BDonate frodo POOL (2000 * e7)) in
  let? w2 := as_signed w1 [POOL; frodo] (BDonate frodo POOL (2000 * e7)) in
  let? evd := op_ev w1 d OutUnit w2 in
  check (bal w2 LP frodo =? fr - 2000 * e7) && (bal w2 LP bs_addr =? bb + 14500 * e7) in
  let? w3 := gos w2 [OExt [] EDistribute; OExt [] BGulp] in
  let o4 := OExt [sam] (BQueue sam POOL (12500 * e7)) in
  let? w4 := go w3 o4 in
  let exp := w_now w3 + 21 * day in
  check (bal w4 LP sam =? 0) && (bal w4 LP bs_addr =? bb + 14500 * e7) in
  let? w5 := gos w4 [jump (7 * day); OExt [] EDistribute; OExt [] BGulp] in
  let o6 := OExt [sam] (BDequeue sam POOL (6250 * e7)) in
  let? w6 := go w5 o6 in
  check (bal w6 LP sam =? 0) && (bal w6 LP bs_addr =? bb + 14500 * e7) in
  let? w7 := gos w6 [jump (7 * day); OExt [] EDistribute; OExt [] BGulp] in
  let dr := BDraw POOL (1000 * e7) frodo in
  let? w8 := as_signed w7 [POOL] dr in
  let? evdr := op_ev w7 (OExt [POOL] dr) OutUnit w8 in
  check (bal w8 LP frodo =? fr - 1000 * e7) && (bal w8 LP bs_addr =? bb + 13500 * e7) in
  let? w8 := go w8 (jump (16 * day + 1)) in
  let o9 := OExt [sam] (BWithdraw sam POOL (6250 * e7)) in
  let? '(n, w9) := goz w8 o9 in
  check (n =? 6250 * e7 + 100 * e7) && (bal w9 LP sam =? n) && (bal w9 LP bs_addr =? bb + 13500 * e7 - n) in
  (* the claim: every BLND goes to the Comet pool, for about 14259 shares (the test looks at the last event) *)
  let? s1 := fmul_floor 7000000 2000000 SCALAR_7 in
  let? s2 := fmul_floor 7000000 1111111 SCALAR_7 in
  let? em1 := fmul_floor ((7 * day - 3660) * e7) s1 SCALAR_7 in
  let? em2 := fmul_floor ((14 * day + 1) * e7 + 2096022) s2 SCALAR_7 in
  let o10 := OExt [sam] (BClaim sam [POOL] sam (14259 * e7)) in
  let? w10 := go w9 o10 in
  check near (bal w10 BLND LP) (bal w9 BLND LP + em1 + em2) e7 && near (bal w10 BLND bs_addr) (bal w9 BLND bs_addr - em1 - em2) e7 in
  Ok [(events w o1, [VBDeposit POOL sam (12500 * e7) (12500 * e7)]); (evd, [VBDonate POOL frodo (2000 * e7)]);
      (events w3 o4, [VBQueue POOL sam (12500 * e7) exp]); (events w5 o6, [VBDequeue POOL sam (6250 * e7)]);
      (evdr, [VBDraw POOL frodo (1000 * e7)]); (events w8 o9, [VBWithdraw POOL sam (6250 * e7) (6350 * e7)]);
      (drop 1 (events w9 o10), [VBClaim sam (em1 + em2)])].
Example test_backstop : passes backstop_test. Proof. vm_compute. tauto. Qed.

(** ** test_emitter.rs 16-170 *)
Definition emitter_no_reward_zone : test :=
  let? w := gos w00 (ops_pool [mkEmisMeta 1 1 10000000]) in
  check bal w BLND bs_addr =? 0 in
  let? w := go w (jump (6 * day)) in
  let all := 13 * day in
  let? '(n, w1) := goz w (OExt [] EDistribute) in
  check (n =? all * e7) && fails w1 (OExt [] BGulp) && (bal w1 BLND bs_addr =? all * e7) in
  let? '(n, w2) := goz w1 (OPool [frodo] POOL (PClaim frodo [0; 1; 2; 3] frodo)) in
  check n =? 0 in
  let? '(n, w3) := goz w2 (OExt [frodo] (BClaim frodo [POOL] frodo 0)) in
  check n =? 0 in
  let? w4 := gos w3 [OExt [frodo] (BDeposit frodo POOL (50000 * e7)); OExt [] BUpdTkn;
                     OPool [bombadil] POOL (PSetStatus 3); OPool [] POOL PUpdateStatus;
                     submit frodo [(2, XLM, 100000 * e7)]; OExt [] (BAddReward POOL somebody); OExt [] BGulp] in
  let? '(n, w5) := goz w4 (OPool [] POOL PGulp) in
  check n =? all * 3000000 in
  let? w6 := go w5 (jump (7 * day)) in
  let? '(n, w7) := goz w6 (OPool [frodo] POOL (PClaim frodo [0; 1; 2; 3] frodo)) in
  check (bal w7 BLND frodo - bal w6 BLND frodo =? n) && (n =? all * 3000000 - 400000) in
  let? '(n', w8) := goz w7 (OExt [frodo] (BClaim frodo [POOL] frodo (62899 * e7))) in
  check (n' =? all * 7000000) && (n + n' =? all * e7 - 400000) in
  Ok [].
Example test_emitter_no_reward_zone : passes emitter_no_reward_zone. Proof. vm_compute. tauto. Qed.

(** ** test_emitter.rs 174-306 *)
Definition emitter_test : test :=
  let? w := gos w00 ops_fixture in
  let em := bal w BLND em_addr in
  let bb := bal w BLND bs_addr in
  check fails w (OExt [] (EInit somebody somebody somebody)) && (em_backstop (x_em (w_ext w)) =? bs_addr) in
  let? w := go w (jump (6 * day)) in
  let od := OExt [] EDistribute in
  let? '(n, w1) := goz w od in
  check (n =? (6 * day + 3660) * e7) && (bal w1 BLND em_addr =? em) && (bal w1 BLND bs_addr =? bb + n) in
  let? w2 := gos w1 (join (10000100 * e7) (bal w1 LP bs_addr + 1) new_backstop) in
  let oq := OExt [] (EQueueSwap new_backstop LP) in
  let? w3 := go w2 oq in
  let s1 := mkSwap new_backstop LP (w_now w2 + 31 * day) in
  check em_backstop (x_em (w_ext w3)) =? bs_addr in
  let? w4 := gos w3 [jump (5 * day); OExt [new_backstop] (TTransfer LP new_backstop bombadil 5)] in
  check fails w3 (OExt [] ECancelSwap) in
  let? w5 := go w4 (OExt [] ECancelSwap) in
  check em_backstop (x_em (w_ext w5)) =? bs_addr in
  let? w6 := gos w5 [OExt [bombadil] (TTransfer LP bombadil new_backstop 5); oq] in
  let s2 := mkSwap new_backstop LP (w_now w5 + 31 * day) in
  let? w7 := go w6 (jump (w_now w5 + 31 * day + 1)) in
  check fails w6 (OExt [] ESwap) in
  let? w8 := go w7 (OExt [] ESwap) in
  check em_backstop (x_em (w_ext w8)) =? new_backstop in
  Ok [(events w od, [VDistribute bs_addr ((6 * day + 3660) * e7)]); (events w2 oq, [VQueueSwap s1]);
      (events w4 (OExt [] ECancelSwap), [VDelSwap s1]); (events w7 (OExt [] ESwap), [VSwap s2])].
Example test_emitter : passes emitter_test. Proof. vm_compute. tauto. Qed.

(** ** test_overflow_flag.rs *)
Example test_pool_deposit_overflow_panics :
  (let? w := gos w00 ops_fixture in
   let? w := as_signed w [POOL] (TBurn STABLE POOL (bal w STABLE POOL)) in
   let? w := go w (mint STABLE sam i128_max) in
   Ok (bal w STABLE sam =? i128_max, ret_err (exec w (submit sam [(0, STABLE, i128_max - 10)]))))
  = Ok (true, Some Trap).
Proof. by vm_compute. Qed.
Example test_auction_underflow_panics :
  (let? w := gos w00 (ops_fixture ++ [mint XLM sam (500000 * e7); submit sam [(2, XLM, 6000 * e7); (4, STABLE, 200 * e6)];
                                      OOracle (prices 10000000000 100)]) in
   let? '(a, w) := goauct w (OPool [] POOL (PNewLiq sam 100)) in
   Ok (ret_err (exec w (submit frodo [(6, sam, 1); (5, STABLE, getz (au_bid a) STABLE)]))))
  = Ok (Some Trap).
Proof. by vm_compute. Qed.

(** ** test_pool_inflation_attack.rs *)
Example test_pool_inflation_attack :
  (let? w := gos w00 (ops_create ++ [create_pool 0 6] ++ create_reserve XLM dflt ++ join (100 * e7) (50000 * e7) whale ++
    [OExt [whale] (BDeposit whale POOL (50000 * e7)); OExt [] BUpdTkn; OPool [bombadil] POOL (PSetStatus 0); jump_seq 60;
     mint XLM sauron (1000000 * e7); mint XLM pippen (1000000 * e7);
     submit sauron [(0, XLM, 1)]; jump_seq 5; OExt [sauron] (TTransfer XLM sauron POOL (100 * e7));
     submit pippen [(0, XLM, 42 * e7)]; jump_seq 5;
     submit sauron [(1, XLM, 142 * e7)]; submit pippen [(1, XLM, 142 * e7)]]) in
   Ok (bal w XLM pippen, bal w XLM sauron, bal w XLM POOL))
  = Ok (1000000 * e7, 1000000 * e7 - 100 * e7, 100 * e7).
Proof. by vm_compute. Qed.

(** ** test_backstop_inflation_attack.rs *)
Example test_backstop_inflation_attack :
  (let? w := gos w00 (ops_create ++ [create_pool 0 6] ++ create_reserve XLM dflt ++ join (100 * e7) (400000 * e7) whale ++
    [OExt [whale] (TTransfer LP whale sauron (200000 * e7)); OExt [whale] (TTransfer LP whale pippen (200000 * e7))]) in
   let? '(a, w) := goz w (OExt [sauron] (BDeposit sauron POOL 100)) in
   let? w := go w (OExt [sauron] (TTransfer LP sauron POOL (10000 * e7))) in
   let? '(b, w) := goz w (OExt [pippen] (BDeposit pippen POOL 100)) in
   let? w := as_signed w [POOL; sauron] (BDonate sauron POOL (10000 * e7)) in
   Ok (a, b, ret_err (exec w (OExt [pippen] (BDeposit pippen POOL 100)))))
  = Ok (100, 100, Some (BackE 1005)).
Proof. by vm_compute. Qed.

(** ** test_liquidation.rs 17-840 *)
(** the test overwrites the three stored configurations with reactivity 0 (lines 62-98) *)
Definition no_reactivity (w : World) : World :=
  let p := pl w in
  w <| w_pools := <[POOL := p <| ps_rcfg := (fun c => c <| rc_reactivity := 0 |>) <$> ps_rcfg p |>]> (w_pools w) |>.
Definition week : list Op := [jump (7 * day); OExt [] EDistribute; OExt [] BGulp; OPool [] POOL PGulp].
Definition liquidations : test :=
  let? w := gos w00 (ops_fixture ++
    [submit frodo [(4, STABLE, 10); (5, STABLE, 10); (4, XLM, 10); (5, XLM, 10); (4, WETH, 10); (5, WETH, 10)]]) in
  let w := no_reactivity w in
  let? w := gos w [mint XLM sam (500000 * e7); mint WETH sam (50 * e9); mint USDC frodo (100000 * e7);
                   submit frodo [(2, STABLE, 30000 * e6)]] in
  let? '(sp, w) := gopos w (submit sam [(2, XLM, 160000 * e7); (2, WETH, 17 * e9); (4, STABLE, 28000 * e6); (4, XLM, 65000 * e7)]) in
  let? w := gos w (concat (replicate 12 week)) in
  (* the interest auction *)
  let o1 := OPool [] POOL (PNewInterest [STABLE; WETH; XLM]) in
  let? '(ai, w1) := goauct w o1 in
  let il := getz (au_lot ai) in
  check near (il STABLE) 256746831 5000000 && near (il XLM) 1795067018 5000000 && near (il WETH) 2671545 5000
        && near (getz (au_bid ai) LP) 3137415968 e7 && (au_block ai =? 151) && is_new_auct 2 ai (events w o1) in
  (* the liquidation auction of 30% *)
  let o2 := OPool [] POOL (PNewLiq sam 30) in
  let? '(al, w2) := goauct w1 o2 in
  let usdc_bid := getz (au_bid al) STABLE in
  let xlm_bid := getz (au_bid al) XLM in
  let xlm_lot := getz (au_lot al) XLM in
  let weth_lot := getz (au_lot al) WETH in
  let? b0 := fmul_ceil (getz (po_liab sp) 0) 3000000 SCALAR_7 in
  let? b1 := fmul_ceil (getz (po_liab sp) 1) 3000000 SCALAR_7 in
  check near usdc_bid b0 e7 && near xlm_bid b1 e7 && near xlm_lot 401006654560 e7 && near weth_lot 4260750195 1000
        && is_new_liq sam al (events w1 o2) in
  let? w3 := go w2 (jump_seq 505) in
  let o4 := submit frodo [(6, sam, 25); (6, sam, 100); (8, bs_addr, 99); (8, bs_addr, 100); (5, STABLE, usdc_bid)] in
  let? '(fp, w4) := gopos w3 o4 in
  check near (getz (po_coll fp) 2) (weth_lot / 2 + 10 * e9) 1000 && near (getz (po_coll fp) 1) (xlm_lot / 2 + 100000 * e7) 1000
        && near (getz (po_liab fp) 1) (xlm_bid + 65000 * e7) 1000 && near (getz (po_liab fp) 0) (8000 * e6 + 559285757) 100000
        && near (bal w4 STABLE frodo) (bal w3 STABLE frodo - usdc_bid + il STABLE / 2) e6
        && near (bal w4 XLM frodo) (bal w3 XLM frodo + il XLM / 2) e7
        && near (bal w4 WETH frodo) (bal w3 WETH frodo + il WETH / 2) e9 in
  let fills := List.filter (fun e => match e with VFill _ _ _ _ _ => true | _ => false end) (events w3 o4) in
  (* ether falls: a full liquidation *)
  let? w5 := gos w4 [OOracle (prices 5000000000 1000000); submit sam []] in
  let? '(al, w6) := goauct w5 (OPool [] POOL (PNewLiq sam 100)) in
  let usdc_bid := getz (au_bid al) STABLE in
  let xlm_bid := getz (au_bid al) XLM in
  check near usdc_bid 19599872330 100000 && near xlm_bid 454988226700 e7
        && near (getz (au_lot al) XLM) 1399472453890 e7 && near (getz (au_lot al) WETH) 14869584990 100000000 in
  let? w6 := go w6 (jump_seq 1255) in
  let? '(np, w7) := gopos w6 (submit frodo [(6, sam, 100); (5, STABLE, usdc_bid / 2); (5, XLM, xlm_bid / 2)]) in
  check near (getz (po_coll fp) 1 + getz (au_lot al) XLM) (getz (po_coll np) 1) e7
        && near (getz (po_coll fp) 2 + getz (au_lot al) WETH) (getz (po_coll np) 2) e7
        && near (getz (po_liab fp) 0 + usdc_bid * 3 / 4 - 9147499950) (getz (po_liab np) 0) e6
        && near (getz (po_liab fp) 1 + xlm_bid * 3 / 4 - 224386298700) (getz (po_liab np) 1) e7
        && near (bal w6 STABLE frodo - 9799936164) (bal w7 STABLE frodo) e6
        && near (bal w6 XLM frodo - 227494113400) (bal w7 XLM frodo) e7 in
  (* the rest is bad debt *)
  let? '(sp, w8) := gopos w7 (submit sam []) in
  let? w9 := go w8 (OPool [] POOL (PBadDebt sam)) in
  let bp := get_pos (pl w9) bs_addr in
  let s0 := getz (po_liab sp) 0 in
  let s1 := getz (po_liab sp) 1 in
  check (getz (po_liab bp) 0 =? s0) && (getz (po_liab bp) 1 =? s1) in
  let o10 := OPool [] POOL PNewBadDebt in
  let? '(ab, w10) := goauct w9 o10 in
  check (length (entries (au_bid ab)) =? 2)%nat && (length (entries (au_lot ab)) =? 1)%nat
        && (getz (au_bid ab) STABLE =? s0) && (getz (au_bid ab) XLM =? s1) && near (getz (au_lot ab) LP) 71710435309 e7
        && is_new_auct 1 ab (events w9 o10) in
  let? w11 := go w10 (jump_seq 505) in
  let o12 := submit frodo [(7, bs_addr, 20)] in
  let? '(pp, w12) := gopos w11 o12 in
  let? f0 := fmul_ceil s0 20 100 in
  let? f1 := fmul_ceil s1 20 100 in
  let? g0 := fmul_floor s0 80 100 in
  let? g1 := fmul_floor s1 80 100 in
  let? na := unwrap (ps_auct (pl w12) !! (1, bs_addr)) in
  check (getz (po_liab pp) 0 =? getz (po_liab np) 0 + f0) && (getz (po_liab pp) 1 =? getz (po_liab np) 1 + f1)
        && near (bal w12 LP frodo) (bal w11 LP frodo + 7171043530) e7
        && near (bal w12 LP bs_addr) (bal w11 LP bs_addr - 7171043531) e7
        && (length (entries (au_bid na)) =? 2)%nat && (length (entries (au_lot na)) =? 1)%nat
        && (getz (au_bid na) STABLE =? g0) && (getz (au_bid na) XLM =? g1)
        && near (getz (au_lot na) LP) (getz (au_lot ab) LP - 14342087060) e7 && (au_block na =? au_block ab) in
  let? w13 := go w12 (jump_seq 250) in
  let o14 := submit frodo [(7, bs_addr, 100)] in
  let? '(pp, w14) := gopos w13 o14 in
  check (getz (po_liab pp) 0 =? getz (po_liab np) 0 + s0) && (getz (po_liab pp) 1 =? getz (po_liab np) 1 + s1)
        && near (bal w14 LP frodo) (bal w13 LP frodo + 43026261190) e7
        && near (bal w14 LP bs_addr) (bal w13 LP bs_addr - 43026261190) e7 in
  (* the depositor was slashed *)
  let? w15 := gos w14 [OExt [frodo] (BQueue frodo POOL (50000 * e7)); jump (45 * day); OExt [frodo] (BWithdraw frodo POOL (50000 * e7))] in
  check near (bal w15 LP frodo - bal w14 LP frodo) (50000 * e7 - 7171043530 - 43026261190 + 3137415968) e7 in
  let? w15 := go w15 (OExt [frodo] (BDeposit frodo POOL 100000000)) in
  (* bad debt that is burned *)
  let? '(sp, w15) := gopos w15 (submit sam [(2, WETH, e9); (4, STABLE, 100 * e6)]) in
  let? w15 := go w15 (OOracle (prices 100000000 1000000)) in
  let o16 := OPool [] POOL (PNewLiq sam 100) in
  let? '(al, w16) := goauct w15 o16 in
  check near (getz (au_bid al) STABLE) (getz (po_liab sp) 0) e7 && is_new_liq sam al (events w15 o16) in
  let? w17 := gos w16 [jump_seq 2005; submit frodo [(6, sam, 100)]; submit sam []] in
  let obd := OPool [] POOL (PBadDebt sam) in
  let? w18 := go w17 obd in
  let? '(_, w19) := goauct w18 (OPool [] POOL PNewBadDebt) in
  let? w19 := go w19 (jump_seq 2005) in
  let? '(fp, w20) := gopos w19 (submit frodo [(4, STABLE, 1)]) in
  let? r := rdata w20 STABLE in
  let bad_debt := 92903008 in
  let d_supply := 19104605847 in
  check bool_decide (entries (po_liab (get_pos (pl w20) bs_addr)) = [(0, bad_debt)]) && (rd_d_supply r =? d_supply) in
  let? '(pp, w21) := gopos w20 o14 in
  let? r := rdata w21 STABLE in
  check (getz (po_liab fp) 0 =? getz (po_liab pp) 0) && bool_decide (entries (po_liab (get_pos (pl w21) bs_addr)) = [])
        && (rd_d_supply r =? d_supply - bad_debt) in
  Ok [(fills, [VFill POOL sam 0 frodo 25; VFill POOL sam 0 frodo 100; VFill POOL bs_addr 2 frodo 99; VFill POOL bs_addr 2 frodo 100]);
      (drop 1 (events w11 o12), [VFill POOL bs_addr 1 frodo 20]); (drop 1 (events w13 o14), [VFill POOL bs_addr 1 frodo 100]);
      (events w17 obd, [VBadDebt POOL sam STABLE bad_debt]);
      (drop 1 (events w20 o14), [VBadDebt POOL bs_addr STABLE bad_debt; VFill POOL bs_addr 1 frodo 100])].
Example test_liquidations : passes liquidations. Proof. vm_compute. tauto. Qed.

(** ** test_liquidation.rs 842-990 *)
Definition no_auct (w : World) (t : Z) (u : Addr) : bool := match ps_auct (pl w) !! (t, u) with None => true | Some _ => false end.
Definition restore_and_delete : test :=
  let? w := gos w00 (ops_fixture ++ [mint STABLE sam (1100 * e6); submit sam [(2, STABLE, 1000 * e6); (4, XLM, 6075 * e7)];
                                     OOracle (prices 20000000000 1200000); OPool [] POOL (PNewLiq sam 50)]) in
  check negb (no_auct w 0 sam) in
  let? w := go w (jump_seq 1000) in
  let del := (9, somebody, i128_max) in
  check fails_with w (submit sam [del]) 1205
        && fails_with w (submit sam [(2, STABLE, 79 * e6); del]) 1205
        && fails_with w (submit sam [del; (5, XLM, 449 * e7)]) 1205 in
  let? '(p, w) := gopos w (submit sam [(2, STABLE, 41 * e6); del; (5, XLM, 226 * e7)]) in
  check near (getz (po_coll p) 0) (1041 * e6) 10000 && near (getz (po_liab p) 1) (5849 * e7) e7 && no_auct w 0 sam in
  Ok [].
Example test_user_restore_position_and_delete_liquidation : passes restore_and_delete. Proof. vm_compute. tauto. Qed.

(** ** test_wasm_happy_path.rs *)
Notation merry := 16 (only parsing).
(** a step of a user with one reserve: the request, the balances after it, and the positions *)
Definition user_step (w : World) (u r t amt dpool duser : Z) : res (Positions * World) :=
  let? '(p, w') := gopos w (submit u [(t, r, amt)]) in
  check (bal w' r u =? bal w r u + duser) && (bal w' r POOL =? bal w r POOL + dpool) in Ok (p, w').
Definition claim_pool (w : World) (u amt : Z) : res World :=
  let? '(n, w') := goz w (OPool [u] POOL (PClaim u [0; 3] u)) in
  check (n =? amt) && (bal w' BLND bs_addr =? bal w BLND bs_addr - amt) && (bal w' BLND u =? bal w BLND u + amt) in Ok w'.
(** [lp] shares come out of the Comet pool *)
Definition claim_back (w : World) (u amt lp : Z) : res World :=
  let? '(n, w') := goz w (OExt [u] (BClaim u [POOL] u lp)) in
  check (n =? amt) && (bal w' BLND bs_addr =? bal w BLND bs_addr - amt) in Ok w'.
Definition happy_path (lp1 lp2 lp3 : Z) : test :=
  let? w := gos w00 (ops_fixture ++ [mint STABLE sam (60000 * e6); mint STABLE merry (250000 * e6);
                                     mint XLM sam (2500000 * e7); mint XLM merry (600000 * e7)]) in
  let n := 190000 * e6 in
  let? '(p, w) := user_step w merry STABLE 2 n n (- n) in
  let? r := rdata w STABLE in
  let? mb := fdiv_floor n (rd_b_rate r) SCALAR_9 in
  check near (getz (po_coll p) 0) mb 10 in
  let n := 1900000 * e7 in
  let? '(p, w) := user_step w sam XLM 2 n n (- n) in
  let? r := rdata w XLM in
  let? sb := fdiv_floor n (rd_b_rate r) SCALAR_9 in
  check near (getz (po_coll p) 1) sb 10 in
  let n := 112000 * e6 in
  let? '(p, w) := user_step w sam STABLE 4 n (- n) n in
  let? r := rdata w STABLE in
  let? sd := fdiv_floor n (rd_d_rate r) SCALAR_9 in
  check near (getz (po_liab p) 0) sd 10 in
  let n := 1135000 * e7 in
  let? '(p, w) := user_step w merry XLM 4 n (- n) n in
  let? r := rdata w XLM in
  let? md := fdiv_floor n (rd_d_rate r) SCALAR_9 in
  check near (getz (po_liab p) 1) md 10 in
  (* emissions of the setup, then of three days *)
  let? w := claim_pool w frodo 10980000000 in
  let? w := claim_back w frodo 25620000000 lp1 in
  let? w := go w (jump (3 * day)) in
  let? w := claim_pool w frodo 46656384000 in
  let? w := claim_pool w sam 730943066650 in
  let n := 55000 * e6 in
  let? '(p, w) := user_step w sam STABLE 5 n n (- n) in
  let? r := rdata w STABLE in
  let? k := fdiv_floor n (rd_d_rate r) SCALAR_9 in
  let sd := sd - k in
  check near (getz (po_liab p) 0) sd 10 in
  let n := 575000 * e7 in
  let? '(p, w) := user_step w merry XLM 5 n n (- n) in
  let? r := rdata w XLM in
  let? k := fdiv_floor n (rd_d_rate r) SCALAR_9 in
  let md := md - k in
  check near (getz (po_liab p) 1) md 10 in
  let n := 1000000 * e7 in
  let? '(p, w) := user_step w sam XLM 3 n (- n) n in
  let? r := rdata w XLM in
  let? k := fdiv_floor n (rd_b_rate r) SCALAR_9 in
  let sb := sb - k in
  check near (getz (po_coll p) 1) sb 10 in
  let n := 100000 * e6 in
  let? '(p, w) := user_step w merry STABLE 3 n (- n) n in
  let? r := rdata w STABLE in
  let? k := fdiv_floor n (rd_b_rate r) SCALAR_9 in
  let mb := mb - k in
  check near (getz (po_coll p) 0) mb 10 in
  (* the rest of the week *)
  let? w := gos w [jump 341940; OExt [] EDistribute; OExt [] BGulp; OPool [] POOL PGulp] in
  let? w := claim_pool w frodo 116731656000 in
  let? w := claim_back w frodo 4207979972539 lp2 in
  let? w := claim_pool w sam 909088243725 in
  (* 51 weeks, and one more *)
  let? w := gos w [jump (7 * day * 51); OExt [] EDistribute; OExt [] BGulp; OPool [] POOL PGulp;
                   jump (7 * day); OExt [] EDistribute; OExt [] BGulp; OPool [] POOL PGulp] in
  let? w := claim_back w frodo 220147199950114 lp3 in
  let? w := claim_pool w frodo 10736281628000 in
  let? w := claim_pool w sam 83612516449409 in
  (* everybody leaves *)
  let? n := fmul_ceil sd 1100000000 SCALAR_9 in
  let? '(p, w') := gopos w (submit sam [(5, STABLE, n)]) in
  let? r := rdata w' STABLE in
  let? est := fmul_ceil sd (rd_d_rate r) SCALAR_9 in
  check near (bal w' STABLE sam) (bal w STABLE sam - est) 100 && near (bal w' STABLE POOL) (bal w STABLE POOL + est) 100
        && bool_decide (entries (po_liab p) = []) in
  let? n := fmul_ceil md 1250000000 SCALAR_9 in
  let? '(p, w2) := gopos w' (submit merry [(5, XLM, n)]) in
  let? r := rdata w2 XLM in
  let? est := fmul_ceil md (rd_d_rate r) SCALAR_9 in
  check near (bal w2 XLM merry) (bal w' XLM merry - est) 100 && near (bal w2 XLM POOL) (bal w' XLM POOL + est) 100
        && bool_decide (entries (po_liab p) = []) in
  let? n := fmul_ceil sb (rd_b_rate r) SCALAR_9 in
  let? '(p, w3) := gopos w2 (submit sam [(3, XLM, n)]) in
  check near (bal w3 XLM sam) (bal w2 XLM sam + n) 10 && near (bal w3 XLM POOL) (bal w2 XLM POOL - n) 10
        && bool_decide (po_coll p !! 1 = None) in
  let? r := rdata w3 STABLE in
  let? n := fmul_ceil mb (rd_b_rate r) SCALAR_9 in
  let? '(p, w4) := gopos w3 (submit merry [(3, STABLE, n)]) in
  check near (bal w4 STABLE merry) (bal w3 STABLE merry + n) 10 && near (bal w4 STABLE POOL) (bal w3 STABLE POOL - n) 10
        && bool_decide (po_coll p !! 0 = None) in
  let? w5 := go w4 (OExt [frodo] (BQueue frodo POOL (500 * e7))) in
  check (bal w5 LP frodo =? bal w4 LP frodo) && (bal w5 LP bs_addr =? bal w4 LP bs_addr) in
  let? w5 := go w5 (jump (30 * day + 1)) in
  let? '(n, w6) := goz w5 (OExt [frodo] (BWithdraw frodo POOL (500 * e7))) in
  check (n =? 500 * e7) && (bal w6 LP frodo =? bal w5 LP frodo + n) && (bal w6 LP bs_addr =? bal w5 LP bs_addr - n) in
  Ok [].
(** The share counts are those of the Comet contract for a deposit of BLND alone (weight 0.8, fee
    0.003), up to its rounding; the later claims, which the test knows to the last digit, depend on them. *)
Example test_wasm_happy_path : passes (happy_path 2048364995 336293443148 17231208827384).
Proof. vm_compute. tauto. Qed.
