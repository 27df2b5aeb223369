(** * Concrete cases for C60 *)
From Verif Require Import Base Types Token Emitter Factory Backstop PoolReserve PoolUser PoolHealth
  PoolAuction PoolSubmit PoolEmis PoolAdmin World Facts XMove Spec PoolFrame PoolCfg PoolHF PoolAccrue PropsAdmin PoolEmisInv PropsBackstop5 PropsPool1 PropsPool2 PropsPool3
  PropsPool4 PropsPool5 PropsPool9 PropsPool10 PoolLive PropsPool13 PropsPool15 PropsPool16 PropsPool20 Scenario ScenarioPool ExamplesPool ExamplesPool2 ExamplesPool3.

Definition healthy_b (w : World) (a : Addr) (dec : Z) (pos : Positions) : bool :=
  eff_liab (w_now w) (pool w a) (w_ext w) pos * (10 ^ dec * 10000100 / 10000000) <=? eff_coll (w_now w) (pool w a) (w_ext w) pos * 10 ^ dec.
Definition all_valued_b (w : World) (a : Addr) (dec : Z) (pos : Positions) : bool :=
  match o_dec (x_orc (w_ext w)) !! pc_oracle (ps_config (pool w a)) with Some dec' => dec' =? dec | None => false end && (dec <=? 18) &&
  forallb (fun r => 0 <=? price_of (pool w a) (w_ext w) r) (reserve_list w a) &&
  forallb (fun ir => ((get_coll pos ir.1 =? 0) && (get_liab pos ir.1 =? 0)) || valued_b w a ir.2 (get_coll pos ir.1) (get_liab pos ir.1)) (indexed 0 (reserve_list w a)) &&
  (raw_coll (w_now w) (pool w a) (w_ext w) pos * 10 ^ dec <=? i128_max) && (eff_liab (w_now w) (pool w a) (w_ext w) pos <=? i128_max).
Lemma all_valued_dec w a dec pos : all_valued_b w a dec pos = true -> all_valued w a dec pos.
Proof.
  unfold all_valued_b. intros H. repeat (apply andb_true_iff in H as [H ?]). unfold all_valued.
  split. { destruct (o_dec _ !! _); [|done]. apply Z.eqb_eq in H. by subst. }
  split; [by apply Z.leb_le|]. split. { intros r Hr. rewrite forallb_forall in *. apply Z.leb_le. match goal with H : forall x, In x (reserve_list w a) -> _ |- _ => apply H end. by apply elem_of_list_In. }
  split; [|split; by apply Z.leb_le]. intros i r Hl Hn.
  match goal with H : forallb _ (indexed 0 _) = true |- _ => rewrite forallb_forall in H; specialize (H (Z.of_nat i, r) ltac:(apply elem_of_list_In; apply (indexed_lookup _ _ _ 0 Hl))); cbn [fst snd] in H; apply orb_true_iff in H as [H|H] end; [|by apply valued_dec].
  match goal with H : _ && _ = true |- _ => apply andb_true_iff in H as [?%Z.eqb_eq ?%Z.eqb_eq] end. lia.
Qed.
Definition util_b (d : ResData) (max : Z) : bool := (0 <? total_supplied d) && (cdiv (total_debt d * 10000000) (total_supplied d) <=? max).
Lemma util_dec d max : util_b d max = true -> util_at_most d max.
Proof. unfold util_b. intros [H1%Z.ltb_lt H2%Z.leb_le]%andb_true_iff. done. Qed.

Definition borrow_b (w : World) (a u to r n dec : Z) (cfg : ResConfig) (d : ResData) : bool :=
  let rate := d_rate_now w a r in let debt := owed (account w a u) r in let pos := positions w a u in
  let pos' := pos <| po_liab := <[rc_index cfg := debt + up n rate]> (po_liab pos) |> in
  (status w a <=? 1) && (0 <? n) && (n <=? held w r a) && ((0 <? debt) || (position_count pos + 1 <=? pc_max_positions (ps_config (pool w a)))) &&
  util_b (data_at (w_now w) (pool w a) r <| rd_d_supply := rd_d_supply d + up n rate |>) (rc_max_util cfg) &&
  healthy_b w a dec pos' && all_valued_b w a dec pos' && accruable_b w a r && emis_fits_b (w_now w) (pool w a) u (rc_index cfg * 2) &&
  (n * 1000000000 <=? i128_max) && ((rd_d_supply d + up n rate) * rate * 10000000 <=? i128_max) && (rd_b_supply d * b_rate_now w a r <=? i128_max) &&
  (held w r to + n <=? i128_max).
(** alice, with debt already, and carol, with collateral only, can borrow *)
Definition ops_carol : list Op := ops_loan ++ [submit_op carol [(2, AAA, 100000000000)]].
Definition dataL : ResData := Eval vm_compute in default (mkResData 0 0 0 0 0 0 0) (res_of (run sc0 ops_carol) BBB).
Example ex_C60_borrow : forall u n, (u, n) = (alice, 6000000000) \/ (u, n) = (carol, 44000000000) ->
  succeeds (run sc0 ops_carol) (OPool [u] P1 (PSubmit u u u [mkReq 4 BBB n])).
Proof.
  intros u n Hun.
  assert (reachable (run sc0 ops_carol)) as Hr by apply sc_reachable.
  assert (ps_rcfg (pool (run sc0 ops_carol) P1) !! BBB = Some cfgB) as Hc by by vm_compute.
  assert (reserve (run sc0 ops_carol) P1 BBB = Some dataL) as Hd by by vm_compute.
  assert (borrow_b (run sc0 ops_carol) P1 u u BBB n 7 cfgB dataL = true) as Hb by (destruct Hun as [[= -> ->]|[= -> ->]]; by vm_compute).
  generalize dependent (run sc0 ops_carol). intros w Hr Hc Hd Hb. unfold borrow_b in Hb. cbv zeta in Hb.
  repeat (apply andb_true_iff in Hb as [Hb ?]). rewrite ?Z.leb_le, ?Z.ltb_lt in *.
  assert (forallb ok_signer [u] = true /\ u <> P1) as [Hok Hu1] by (destruct Hun as [[= -> ->]|[= -> ->]]; done).
  eapply (C60_borrow_possible w [u] P1 u u BBB n cfgB dataL 7); try done; try (by left).
  - match goal with H : _ || _ = true |- _ => apply orb_true_iff in H as [H|H]; [left; by apply Z.ltb_lt|right; by apply Z.leb_le] end.
  - by apply util_dec.
  - unfold healthy. by apply Z.leb_le.
  - by apply all_valued_dec.
  - by apply accruable_dec.
  - by apply emis_fits_dec.
Qed.
(** what the theorem asks for is needed: 7 billion are unhealthy, 46 billion above 95% utilization; a
    pool on ice refuses *)
Example ex_C60_borrow_refused :
  ret (run sc0 ops_carol) (submit_op alice [(4, BBB, 7000000000)]) = None /\ ret (run sc0 ops_carol) (submit_op carol [(4, BBB, 46000000000)]) = None /\
  ret (run sc0 (ops_carol ++ [OPool [admin] P1 (PSetStatus 2)])) (submit_op carol [(4, BBB, 1000000)]) = None.
Proof. split; [by vm_compute|]. split; by vm_compute. Qed.

Definition wcoll_b (w : World) (a u to r n dec : Z) (cfg : ResConfig) (d : ResData) : bool :=
  let rate := b_rate_now w a r in let mine := collateral (account w a u) r in let burnt := Z.min mine (up n rate) in
  let pay := if mine <? up n rate then mine * rate / 1000000000 else n in let pos := positions w a u in
  let pos' := pos <| po_coll := if burnt =? mine then delete (rc_index cfg) (po_coll pos) else <[rc_index cfg := mine - burnt]> (po_coll pos) |> in
  (0 <? n) && (0 <? mine) && (pay <=? held w r a) && healthy_b w a dec pos' && all_valued_b w a dec pos' && accruable_b w a r &&
  emis_fits_b (w_now w) (pool w a) u (rc_index cfg * 2 + 1) && (n * 1000000000 <=? i128_max) && (mine * rate <=? i128_max) &&
  (rd_b_supply d <=? i128_max) && (held w r to + pay <=? i128_max).
Definition dataA : ResData := Eval vm_compute in default (mkResData 0 0 0 0 0 0 0) (res_of (run sc0 ops_carol) AAA).
Definition ops_ice : list Op := ops_carol ++ [OPool [admin] P1 (PSetStatus 4)].
Example ex_C60_collateral_withdrawal :
  status (run sc0 ops_ice) P1 = 4 /\ map_to_list (po_liab (positions (run sc0 ops_ice) P1 alice)) <> [] /\
  succeeds (run sc0 ops_ice) (OPool [alice] P1 (PSubmit alice alice dave [mkReq 3 AAA 11000000000])).
Proof.
  split; [by vm_compute|]. split; [by vm_compute|].
  assert (reachable (run sc0 ops_ice)) as Hr by apply sc_reachable.
  assert (ps_rcfg (pool (run sc0 ops_ice) P1) !! AAA = Some cfgA) as Hc by by vm_compute.
  assert (reserve (run sc0 ops_ice) P1 AAA = Some dataA) as Hd by by vm_compute.
  assert (wcoll_b (run sc0 ops_ice) P1 alice dave AAA 11000000000 7 cfgA dataA = true) as Hb by by vm_compute.
  generalize dependent (run sc0 ops_ice). intros w Hr Hc Hd Hb. unfold wcoll_b in Hb. cbv zeta in Hb.
  repeat (apply andb_true_iff in Hb as [Hb ?]). rewrite ?Z.leb_le, ?Z.ltb_lt in *.
  eapply (C60_collateral_withdrawal_possible w [alice] P1 alice dave AAA 11000000000 cfgA dataA 7); try done; try (by left).
  - unfold healthy. by apply Z.leb_le.
  - by apply all_valued_dec.
  - by apply accruable_dec.
  - by apply emis_fits_dec.
Qed.
Example ex_C60_withdrawal_refused : ret (run sc0 ops_ice) (submit_op alice [(3, AAA, 12000000000)]) = None.
Proof. by vm_compute. Qed.

Definition scoll_b (w : World) (a u r n : Z) (cfg : ResConfig) (d : ResData) : bool :=
  let rate := b_rate_now w a r in
  (status w a <=? 3) && ((0 <? collateral (account w a u) r) || (position_count (positions w a u) + 1 <=? pc_max_positions (ps_config (pool w a)))) &&
  (rate <=? n * 1000000000) && (n <=? held w r u) && accruable_b w a r && emis_fits_b (w_now w) (pool w a) u (rc_index cfg * 2 + 1) &&
  (n * 1000000000 <=? i128_max) && (rd_b_supply d + down n rate <=? i128_max) && (held w r a + n <=? i128_max).
Example ex_C60_collateral_supply : forall u, u = bob \/ u = carol -> succeeds (run sc0 ops_carol) (OPool [u] P1 (PSubmit u u u [mkReq 2 AAA 7000])).
Proof.
  intros u Hu.
  assert (reachable (run sc0 ops_carol)) as Hr by apply sc_reachable.
  assert (ps_rcfg (pool (run sc0 ops_carol) P1) !! AAA = Some cfgA) as Hc by by vm_compute.
  assert (reserve (run sc0 ops_carol) P1 AAA = Some dataA) as Hd by by vm_compute.
  assert (scoll_b (run sc0 ops_carol) P1 u AAA 7000 cfgA dataA = true) as Hb by (destruct Hu as [->| ->]; by vm_compute).
  generalize dependent (run sc0 ops_carol). intros w Hr Hc Hd Hb. unfold scoll_b in Hb. cbv zeta in Hb.
  repeat (apply andb_true_iff in Hb as [Hb ?]). rewrite ?Z.leb_le, ?Z.ltb_lt in *.
  assert (forallb ok_signer [u] = true /\ u <> P1) as [Hok Hu1] by (destruct Hu as [->| ->]; done).
  eapply (C60_collateral_supply_possible w [u] P1 u u AAA 7000 cfgA dataA); try done; try (by left).
  - match goal with H : _ || _ = true |- _ => apply orb_true_iff in H as [H|H]; [left; by apply Z.ltb_lt|right; by apply Z.leb_le] end.
  - by apply accruable_dec.
  - by apply emis_fits_dec.
Qed.
