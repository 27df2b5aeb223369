(** * Concrete cases that meet the hypotheses of the pool theorems, and refutations of
    over-optimistic claims (all worlds are reachable: [sc_reachable]) *)
From Verif Require Import Base Types Token Emitter Factory Backstop PoolReserve PoolUser PoolHealth
  PoolAuction PoolSubmit PoolEmis PoolAdmin World Facts Spec PoolFrame PoolCfg PoolAccrue PoolTrace PoolInv AuctionFacts
  PropsBackstop PoolHF PropsPool1 PropsPool2 PropsPool3 PropsPool4 PropsPool5 PropsPool6 PropsPool7 PropsPool8 PropsPool9 Scenario ScenarioPool.

(** C01, C02: the world after the loan and after the fill *)
Example ex_C01 : let w := run sc0 ops_fill in
  reserve_list w P1 = [AAA; BBB] /\
  option_map (fun d => (rd_d_supply d, rd_b_supply d)) (reserve w P1 AAA) = Some (0, 600000000000) /\
  option_map (fun d => (rd_d_supply d, rd_b_supply d)) (reserve w P1 BBB) = Some (50000000000, 100000000000) /\
  pos_of w alice = ([(1, 35000000000)], [(0, 87726239875)], []) /\
  pos_of w carol = ([(1, 15000000000)], [(0, 512273760125)], []) /\
  pos_of w bob = ([], [], [(1, 100000000000)]).
Proof. split; [by vm_compute|]. split; [by vm_compute|]. split; [by vm_compute|]. split; [by vm_compute|]. split; by vm_compute. Qed.
(** C04, C05: interest moves the rates *)
Example ex_C04 :
  option_map (fun d => (rd_b_rate d, rd_d_rate d, rd_ir_mod d)) (reserve (run sc0 ops_loan) P1 BBB) = Some (1000000000, 1000000000, 1000000000) /\
  option_map (fun d => (rd_b_rate d, rd_d_rate d, rd_ir_mod d)) (reserve (run sc0 ops_fill) P1 BBB) = Some (1017333635, 1043334088, 100000000).
Proof. split; by vm_compute. Qed.
(** C08: carol, who takes over debt by the fill, is healthy; alice's borrow is checked, too *)
Example ex_C08 : let w := run sc0 ops_wait in
  ret w (submit_op carol [(6, alice, 50)]) <> None /\ ret w (submit_op alice [(4, BBB, 1)]) = None /\
  prices_nonneg w P1 /\ po_liab (positions (run sc0 ops_fill) P1 carol) <> ∅ /\
  o_dec (x_orc (w_ext (run sc0 ops_fill))) !! pc_oracle (ps_config (pool (run sc0 ops_fill) P1)) = Some 7.
Proof.
  split; [by vm_compute|]. split; [by vm_compute|]. split.
  - intros r Hr. assert (Forall (fun r => 0 <= price_of (pool (run sc0 ops_wait) P1) (w_ext (run sc0 ops_wait)) r) (reserve_list (run sc0 ops_wait) P1)) as Hf.
    { refine (bool_decide_eq_true_1 _ _). by vm_compute. }
    rewrite Forall_forall in Hf. by apply Hf.
  - split; [|by vm_compute]. intros He. assert (map_to_list (po_liab (positions (run sc0 ops_fill) P1 carol)) = []) as H by (rewrite He; by vm_compute). by vm_compute in H.
Qed.

(** C11: a borrow within the cap; without the restriction on later withdrawals the claim is false *)
Definition over_util := [(2, AAA, 200000000000); (4, BBB, 10000000000); (1, BBB, 40000000000)].
Example ex_C11 : ret (run sc0 ops_loan) (submit_op bob [(2, AAA, 200000000000); (4, BBB, 10000000000)]) <> None /\
  ret (run sc0 ops_loan) (submit_op bob [(2, AAA, 200000000000); (4, BBB, 45000000001)]) = None.
Proof. split; by vm_compute. Qed.
Theorem C11_restriction_needed : exists w sg a from spender to qs q out w' cfg d,
  reachable w /\ exec w (OPool sg a (PSubmit from spender to qs)) = Ok (out, w') /\ q ∈ qs /\ rq_type q = 4 /\
  ps_rcfg (pool w a) !! rq_addr q = Some cfg /\ reserve w' a (rq_addr q) = Some d /\ ~ util_at_most d (rc_max_util cfg).
Proof.
  set (w := run sc0 ops_loan). set (o := submit_op bob over_util).
  assert (exists out, ret w o = Some out) as [out Ho] by (vm_compute; eauto).
  destruct (ret_exec _ _ _ Ho) as [w' Hw].
  assert (w' = step w o) as -> by (unfold step; by rewrite Hw).
  exists w, [bob], P1, bob, bob, bob, (map (fun e => mkReq e.1.1 e.1.2 e.2) over_util), (mkReq 4 BBB 10000000000), out, (step w o), (cfgA <| rc_index := 1 |>).
  eexists. split; [apply sc_reachable|]. split; [exact Hw|]. split; [apply elem_of_list_In; simpl; tauto|]. split; [done|].
  split; [by vm_compute|]. split; [by vm_compute|]. intros [_ H]. vm_compute in H. by apply H.
Qed.

(** C16: the auction opened on alice at 60%; 100% is too much, 20% too little; bob is not eligible *)
Example ex_C16 : let w := run sc0 ops_year in
  auction_of w 0 alice = None /\
  auction_of (run sc0 ops_liq) 0 alice = Some ([(BBB, 30000000000)], [(AAA, 49590950000)], w_seq w + 1) /\
  ret w (OPool [] P1 (PNewLiq alice 100)) = None /\ ret w (OPool [] P1 (PNewLiq alice 20)) = None /\ ret w (OPool [] P1 (PNewLiq bob 50)) = None.
Proof. split; [by vm_compute|]. split; [by vm_compute|]. split; [by vm_compute|]. split; by vm_compute. Qed.
(** C17, C18, C20: carol fills half of it 99 ledgers after its start *)
Example ex_C18 : let w := run sc0 ops_fill in
  auction_of w 0 alice = Some ([(BBB, 15000000000)], [(AAA, 24795475000)], w_seq (run sc0 ops_year) + 1) /\
  collateral (account w P1 carol) AAA - collateral (account (run sc0 ops_wait) P1 carol) AAA = 24795475000 * (99 * 50000) / 10000000.
Proof. split; by vm_compute. Qed.
Example ex_C21 : ret (run sc0 ops_wait) (submit_op alice [(6, alice, 50)]) = None /\
  ret (run sc0 (ops_liq ++ [submit_op carol [(2, AAA, 500000000000)]])) (submit_op carol [(6, alice, 50)]) = None.
Proof. split; by vm_compute. Qed.
(** C22: alice repays and cancels; carol fills everything that is left *)
Example ex_C22 :
  auction_of (run sc0 (ops_wait ++ [submit_op alice [(5, BBB, 40000000000); (9, alice, 0)]])) 0 alice = None /\
  auction_of (run sc0 (ops_fill ++ [submit_op carol [(6, alice, 100)]])) 0 alice = None /\
  ret (run sc0 ops_wait) (submit_op alice [(9, alice, 0)]) = None.
Proof. split; [by vm_compute|]. split; by vm_compute. Qed.
(** C19: 2^64 + 50 is accepted as 50 *)
Theorem C19_restriction_needed : exists w sg a from spender to q out w',
  reachable w /\ exec w (OPool sg a (PSubmit from spender to [q])) = Ok (out, w') /\ rq_type q = 6 /\ 100 < rq_amt q.
Proof.
  set (w := run sc0 ops_wait). set (o := submit_op carol [(6, alice, 2 ^ 64 + 50)]).
  assert (exists out, ret w o = Some out) as [out Ho] by (vm_compute; eauto).
  destruct (ret_exec _ _ _ Ho) as [w' Hw].
  exists w, [carol], P1, carol, carol, carol, (mkReq 6 alice (2 ^ 64 + 50)), out, w'.
  split; [apply sc_reachable|]. split; [exact Hw|]. by split.
Qed.
Example ex_C19 : ret (run sc0 ops_wait) (submit_op carol [(6, alice, 0)]) = None /\ ret (run sc0 ops_wait) (submit_op carol [(6, alice, 101)]) = None
  /\ ret (run sc0 ops_wait) (submit_op carol [(6, alice, 100)]) <> None.
Proof. split; [by vm_compute|]. split; by vm_compute. Qed.

(** C14: a year of interest on BBB, 20% of it to the backstop; C15: more utilization, more interest *)
Example ex_C14 : let w := run sc0 ops_rich in
  option_map (fun d => (rd_d_rate d, rd_b_rate d, rd_credit d)) (reserve w P1 BBB) = Some (1000000000, 1000000000, 0) /\
  option_map (fun d => (rd_d_rate d, rd_b_rate d, rd_credit d)) (reserve (run sc0 ops_intfill) P1 BBB)
    = Some (1043334088, 1017333635, 303340680) /\
  credit_sold (run sc0 ops_int) (submit_op carol [(8, bs_addr, 60)]) P1 BBB = 130000200.
Proof. split; [by vm_compute|]. split; by vm_compute. Qed.
(** C24: the bad debt auction, a fill with a healthy backstop and a fill that burns the rest *)
Example ex_C24 : let w1 := run sc0 ops_bdwait in let w2 := run sc0 ops_leave in
  auction_of w1 1 bs_addr = Some ([(BBB, 45000000000)], [(LP, 170898438)], w_seq w1 - 99) /\
  ret w1 (submit_op carol [(7, bs_addr, 30)]) <> None /\ ret w2 (submit_op carol [(7, bs_addr, 30)]) <> None /\
  owed (account (step w1 (submit_op carol [(7, bs_addr, 30)])) P1 bs_addr) BBB = 31500000000 /\
  owed (account (step w2 (submit_op carol [(7, bs_addr, 30)])) P1 bs_addr) BBB = 0 /\
  backstop_tokens (step w1 (submit_op carol [(7, bs_addr, 30)])) P1 = 499974621583.
Proof. split; [by vm_compute|]. split; [by vm_compute|]. split; [by vm_compute|]. split; [by vm_compute|]. split; by vm_compute. Qed.

(** C25: the interest auction on a year of credit; 60% of it filled at half of the lot *)
Example ex_C25 : let w := run sc0 ops_rich in let w1 := run sc0 ops_int in let w2 := run sc0 ops_intfill in
  credit_now w P1 BBB = 433334000 /\ credit_value w P1 BBB = 3033338000 /\
  auction_of w1 2 bs_addr = Some ([(LP, 8493346)], [(BBB, 433334000)], w_seq w1 - 100) /\
  backstop_tokens w2 P1 = backstop_tokens w1 P1 + 5096008 /\
  held w2 BBB carol = held w1 BBB carol + 130000200 /\
  credit_now w1 P1 BBB = 433340880 /\ option_map rd_credit (reserve w2 P1 BBB) = Some 303340680.
Proof. split; [by vm_compute|]. split; [by vm_compute|]. split; [by vm_compute|]. split; [by vm_compute|]. split; [by vm_compute|]. split; by vm_compute. Qed.
Fixpoint rate_kept_b (a : Addr) (w : World) (l : list Op) : bool :=
  match l with
  | [] => true
  | o :: l => (bool_decide (auction w a 2 (ps_backstop (pool w a)) = None) || (take_rate w a <=? take_rate (step w o) a)) && rate_kept_b a (step w o) l
  end.
Lemma rate_kept_dec a l : forall w, rate_kept_b a w l = true -> rate_kept a w l.
Proof.
  induction l as [|o l IH]; intros w H; [done|]. cbn [rate_kept_b] in H. apply andb_true_iff in H as [H1 H2]. split; [|by apply IH].
  intros Hn. apply orb_true_iff in H1 as [H1|H1]; [by apply bool_decide_eq_true in H1|lia].
Qed.
Example ex_C25_kept : rate_kept P1 sc0 ops_intfill.
Proof. apply rate_kept_dec. by vm_compute. Qed.
(** the admin lowers the take rate after the auction is opened *)
Definition ops_cut : list Op := ops_rich ++
  [OPool [] P1 (PNewInterest [BBB]); OPool [admin] P1 (PUpdatePool 0 4); OTick 1000 201; submit_op carol [(8, bs_addr, 100)]].
Theorem C25_restriction_needed : exists w0 l a r d,
  initial w0 /\ all_ok w0 l = true /\ reserve (run w0 l) a r = Some d /\ rd_credit d = -433334000.
Proof.
  exists sc0, ops_cut, P1, BBB. eexists. split; [apply sc0_initial|]. split; [by vm_compute|]. split; by vm_compute.
Qed.
(** the minimum of 200 counts an asset as often as it is listed: the credit is worth 56.3 *)
Theorem C25_minimum_counts_duplicates : exists w a r au,
  reachable w /\ credit_value w a r = 563334200 /\ ret w (OPool [] a (PNewInterest [r])) = None /\
  ret w (OPool [] a (PNewInterest [r; r; r; r])) = Some (OutAuction au) /\ map_to_list (au_lot au) = [(r, credit_now w a r)].
Proof.
  exists (run sc0 ops_year), P1, BBB. eexists. split; [apply sc_reachable|]. split; [by vm_compute|]. split; [by vm_compute|]. split; by vm_compute.
Qed.

Definition accruable_b (w : World) (a r : Addr) : bool :=
  match ps_rcfg (pool w a) !! r, reserve w a r with
  | Some cfg, Some d => is_ok (accrue (w_now w) (take_rate w a) cfg d)
  | _, _ => false
  end.
Lemma accruable_dec w a r : accruable_b w a r = true -> accruable w a r.
Proof.
  unfold accruable_b, accruable. destruct (ps_rcfg (pool w a) !! r) as [cfg|]; [|done]. destruct (reserve w a r) as [d|]; [|done].
  destruct (accrue (w_now w) (take_rate w a) cfg d) as [d'|] eqn:E; [|done]. intros _. by exists cfg, d, d'.
Qed.
(** C26: the interest auction of [ops_int] 100 ledgers after its start meets the conditions of a 60% fill by carol *)
Definition ex_au : Auction := mkAuction {[ LP := 8493346 ]} {[ BBB := 433334000 ]} (w_seq sc0 + 5017281).
Lemma ex_au_lot : au_lot (filled ex_au 60 100) = {[ BBB := 130000200 ]}.
Proof. unfold filled, ex_au. cbn [au_lot]. apply omap_singleton_Some. reflexivity. Qed.
Example ex_C26 : let w := run sc0 ops_int in
  auction w P1 2 bs_addr = Some ex_au /\ w_seq w = au_block ex_au + 100 /\ 0 <= au_block ex_au /\ w_seq w <= u32_max /\
  ps_backstop (pool w P1) = bs_addr /\ bs_init (x_bs (w_ext w)) = true /\ room ex_au /\
  let f := filled ex_au 60 100 in
  amount_at (au_bid f) (backstop_token w) = 5096008 /\ 5096008 <= held w (backstop_token w) carol /\
  pb_shares (pool_bal w P1) <> 0 /\ held w (backstop_token w) bs_addr + 5096008 <= i128_max /\ backstop_tokens w P1 + 5096008 <= i128_max /\
  payable w P1 carol (au_lot f).
Proof.
  cbv zeta. split; [by vm_compute|]. split; [by vm_compute|]. split; [by vm_compute|]. split; [by vm_compute|]. split; [by vm_compute|]. split; [by vm_compute|].
  split. { intros k v [H|H]; cbn [ex_au au_bid au_lot] in H; apply lookup_singleton_Some in H as [_ <-]; by vm_compute. }
  split; [by vm_compute|]. split; [by vm_compute|]. split; [by vm_compute|]. split; [by vm_compute|]. split; [by vm_compute|].
  unfold payable. rewrite ex_au_lot. intros r n H. apply lookup_singleton_Some in H as [<- <-]. split; [|split; [by vm_compute|split; by vm_compute]].
  apply accruable_dec. by vm_compute.
Qed.
Example ex_C26_fill : succeeds (run sc0 ops_int) (OPool [carol] P1 (PSubmit carol carol carol [mkReq 8 bs_addr 60])).
Proof.
  destruct ex_C26 as (H1 & H2 & H3 & H4 & H5 & H6 & H7 & H8 & H9 & H10 & H11 & H12 & H13).
  assert (w_seq (run sc0 ops_int) - au_block ex_au = 100) as Ha by lia.
  assert (reachable (run sc0 ops_int)) as Hr by apply sc_reachable.
  assert (0 < amount_at (au_bid ex_au) (backstop_token (run sc0 ops_int))) as Hb by by vm_compute.
  generalize dependent (run sc0 ops_int). intros w H1 H2 H4 H5 H6 H8 H9 H10 H11 H12 H13 Ha Hr Hb.
  apply (C26_fill_possible w [carol] P1 carol carol bs_addr 60 ex_au Hr); rewrite ?Ha, ?H8; try assumption; try lia.
  - left.
  - reflexivity.
  - discriminate.
Qed.
(** ... and 400 ledgers after its start it is stuck *)
Example ex_C26_stuck : let w := run sc0 (ops_int ++ [OTick 1500 300]) in
  auction w P1 2 bs_addr = Some ex_au /\ au_block ex_au + 400 = w_seq w /\ ret w (submit_op carol [(8, bs_addr, 100)]) = None.
Proof. split; [by vm_compute|]. split; by vm_compute. Qed.
