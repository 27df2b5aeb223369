(** * Concrete cases for C57, C58, C59, C24_lot and C14_nothing_lost *)
From Coq Require Import QArith Lqa.
From Verif Require Import Base Types Token Emitter Factory Backstop PoolReserve PoolUser PoolHealth
  PoolAuction PoolSubmit PoolEmis PoolAdmin World Facts XMove Spec PoolFrame PoolCfg PoolHF PoolAccrue PropsAdmin PoolEmisInv PropsBackstop5 PropsPool1 PropsPool2 PropsPool3
  PropsPool4 PropsPool5 PropsPool6 PropsPool7 PropsPool9 PropsPool10 PropsPool17 PropsPool18 PropsPool19 Scenario ScenarioPool ExamplesPool ExamplesPool2 ExamplesPool3.
Local Open Scope Z_scope.

(** ** C57 *)
(** with prices 24 hours old everything still works, a second later borrowing, auctions and the
    withdrawal of collateral by a borrower are refused, while supplying and repaying go on *)
Definition aged (ops : list Op) (s : Z) : World := run sc0 (ops ++ [OTick s 1]).
Example ex_C57_submit :
  ret (aged ops_loan 86400) (submit_op alice [(4, BBB, 1000000)]) <> None /\
  ret (aged ops_loan 86401) (submit_op alice [(4, BBB, 1000000)]) = None /\
  ret (aged ops_loan 86400) (submit_op alice [(3, AAA, 1000000)]) <> None /\
  ret (aged ops_loan 86401) (submit_op alice [(3, AAA, 1000000)]) = None /\
  ret (aged ops_loan 86401) (submit_op alice [(5, BBB, 1000000); (2, AAA, 1000000)]) <> None /\
  ret (aged ops_loan 86401) (submit_op bob [(1, BBB, 1000000)]) <> None /\
  map_to_list (po_liab (positions (run sc0 (ops_loan ++ [OTick 86400 1; submit_op alice [(4, BBB, 1000000)]])) P1 alice)) <> [].
Proof. repeat (split; [by vm_compute|]). by vm_compute. Qed.
Example ex_C57_auctions :
  ret (aged ops_year 86400) (OPool [] P1 (PNewLiq alice 60)) <> None /\
  ret (aged ops_year 86401) (OPool [] P1 (PNewLiq alice 60)) = None /\
  ret (aged ops_baddebt (86400 - 1900)) (OPool [] P1 PNewBadDebt) <> None /\
  ret (aged ops_baddebt (86401 - 1900)) (OPool [] P1 PNewBadDebt) = None /\
  ret (aged ops_rich 86400) (OPool [] P1 (PNewInterest [BBB])) <> None /\
  ret (aged ops_rich 86401) (OPool [] P1 (PNewInterest [BBB])) = None.
Proof. repeat (split; [by vm_compute|]). by vm_compute. Qed.

(** ** C24: the lot *)
Example ex_C24_lot : let w := run sc0 ops_baddebt in let w' := run sc0 (ops_baddebt ++ [OPool [] P1 PNewBadDebt]) in
  ret w (OPool [] P1 PNewBadDebt) <> None /\ reserve_list w P1 = [AAA; BBB] /\
  debt_value w P1 bs_addr AAA = 0 /\ 0 < debt_value w P1 bs_addr BBB /\ 0 < token_value w P1 7 /\
  amount_at (au_lot (default (mkAuction ∅ ∅ 0) (auction w' P1 1 bs_addr))) (backstop_token w) =
    Z.min (backstop_tokens w P1) ((debt_value w P1 bs_addr BBB * 14000000 / 10000000) * 10000000 / token_value w P1 7) /\
  ((debt_value w P1 bs_addr BBB * 14000000 / 10000000) * 10000000 / token_value w P1 7) < backstop_tokens w P1.
Proof. repeat (split; [by vm_compute|]). by vm_compute. Qed.

(** ** C58 *)
Example ex_C58 : let w := run sc0 ops_year in let op := submit_op alice [(5, BBB, 1000000000); (2, AAA, 1000000000); (0, AAA, 5000)] in
  let w' := run sc0 (ops_year ++ [op]) in
  ret w op <> None /\
  eff_coll (w_now w) (pool w P1) (w_ext w) (positions w P1 alice) < eff_coll (w_now w') (pool w' P1) (w_ext w') (positions w' P1 alice) /\
  eff_liab (w_now w') (pool w' P1) (w_ext w') (positions w' P1 alice) < eff_liab (w_now w) (pool w P1) (w_ext w) (positions w P1 alice).
Proof. repeat (split; [by vm_compute|]). by vm_compute. Qed.

(** ** C59 *)
(** the accrual of a year: the debt grows by 4.33 percent *)
Example ex_C59 : let w := run sc0 ops_rich in let op := submit_op bob [(0, BBB, 1000000000)] in
  let w' := run sc0 (ops_rich ++ [op]) in
  ret w op <> None /\
  match ps_rcfg (pool w P1) !! BBB, reserve w P1 BBB, reserve w' P1 BBB with
  | Some cfg, Some d, Some d' =>
      rd_d_rate d = 1000000000 /\ rd_d_rate d' = 1043333400 /\ rd_last_time d < rd_last_time d' /\ util_of d = 5000000 /\
      rd_ir_mod d = 1000000000 /\ rd_ir_mod d' = 100000000 /\ years (rd_last_time d) (w_now w) == 1 /\
      (43333 # 1000000 <= yearly_rate cfg (q7 (util_of d)) (q9 (rd_ir_mod d)) <= 43334 # 1000000)%Q
  | _, _, _ => False
  end.
Proof.
  split; [by vm_compute|]. cbv zeta.
  assert (match ps_rcfg (pool (run sc0 ops_rich) P1) !! BBB, reserve (run sc0 ops_rich) P1 BBB, reserve (run sc0 (ops_rich ++ [submit_op bob [(0, BBB, 1000000000)]])) P1 BBB with
  | Some cfg, Some d, Some d' =>
      (rd_d_rate d =? 1000000000) && (rd_d_rate d' =? 1043333400) && (rd_last_time d <? rd_last_time d') && (util_of d =? 5000000) &&
      (rd_ir_mod d =? 1000000000) && (rd_ir_mod d' =? 100000000) && Qeq_bool (years (rd_last_time d) (w_now (run sc0 ops_rich))) 1 &&
      Qle_bool (43333 # 1000000) (yearly_rate cfg (q7 (util_of d)) (q9 (rd_ir_mod d))) && Qle_bool (yearly_rate cfg (q7 (util_of d)) (q9 (rd_ir_mod d))) (43334 # 1000000)
  | _, _, _ => false
  end = true) as H by by vm_compute.
  generalize dependent (run sc0 (ops_rich ++ [submit_op bob [(0, BBB, 1000000000)]])). intros w' H.
  generalize dependent (run sc0 ops_rich). intros w H.
  destruct (ps_rcfg (pool w P1) !! BBB), (reserve w P1 BBB), (reserve w' P1 BBB); try done.
  repeat (apply andb_true_iff in H as [H ?]). rewrite ?Z.eqb_eq, ?Z.ltb_lt, ?Qle_bool_iff in *.
  repeat (split; [first [done|by apply Qeq_bool_iff]|]). done.
Qed.

(** ** C14: of a year's interest of 216.667 BBB the backstop gets 20% and the suppliers the rest *)
Example ex_C14_nothing_lost : let w := run sc0 ops_rich in let op := submit_op bob [(0, BBB, 1000000000)] in
  let w' := run sc0 (ops_rich ++ [op]) in
  match reserve w P1 BBB, reserve w' P1 BBB with
  | Some d, Some d' =>
    let interest := cdiv (rd_d_supply d * rd_d_rate d') 1000000000 - cdiv (rd_d_supply d * rd_d_rate d) 1000000000 in
    (interest, interest * pc_bstop_rate (ps_config (pool w P1)) / 10000000, (rd_b_supply d * (rd_b_rate d' - rd_b_rate d)) / 1000000000)
  | _, _ => (0, 0, 0)
  end = (2166670000, 433334000, 1733336000).
Proof. by vm_compute. Qed.

(** C59: a new configuration with the same curve keeps the modifier (that the year has brought
    to 0.1), one with another curve resets it *)
Definition ops_requeue (cfg : ResConfig) : list Op := ops_rich ++ [OPool [admin] P1 (PQueueRes BBB cfg); OTick 604800 100000].
Example ex_C59_reset : forall cfg m, In (cfg, m) [(cfgA <| rc_max_util := 9900000 |>, 100000000); (cfgA <| rc_r_two := 6000000 |>, 1000000000); (cfgA <| rc_util := 6000000 |>, 1000000000)] ->
  ret (run sc0 (ops_requeue cfg)) (OPool [] P1 (PSetRes BBB)) <> None /\
  option_map rd_ir_mod (reserve (run sc0 (ops_requeue cfg ++ [OPool [] P1 (PSetRes BBB)])) P1 BBB) = Some m.
Proof. intros cfg m [[= <- <-]|[[= <- <-]|[[= <- <-]|[]]]]; (split; by vm_compute). Qed.
