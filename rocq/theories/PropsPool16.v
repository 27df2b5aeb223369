(** * Suppliers can leave and borrowers can repay: C55 *)
From Verif Require Import Base Types Token Emitter Factory Backstop PoolReserve PoolUser PoolHealth
  PoolAuction PoolSubmit PoolEmis PoolAdmin World Facts XMove Spec PoolFrame PoolCfg PoolAccrue PoolTrace PoolInv AuctionFacts
  PoolSim PoolReq PoolHF PoolOps PoolLiq PoolReach PoolTx PoolEmisInv FrameFacts PropsAdmin BackMoves PropsBackstop PropsBackstop5 PropsPool1 PropsPool2 PropsPool3
  PropsPool4 PropsPool5 PropsPool7 PropsPool9 PropsPool10 PoolLive PropsPool13 PropsPool15.

(** ** Tokens *)
Lemma move_total t tok from to n : from <> to -> 0 <= n <= balance t tok from -> 0 <= balance t tok to -> balance t tok to + n <= i128_max ->
  exists t', tok_move t tok from to n = Ok t' /\ balance t' tok from = balance t tok from - n /\ balance t' tok to = balance t tok to + n /\
    forall k u, (k, u) <> (tok, from) -> (k, u) <> (tok, to) -> balance t' k u = balance t k u.
Proof.
  intros Hne Hn H0 Hm. unfold tok_move. rewrite (proj2 (Z.leb_le 0 n)), (proj2 (Z.leb_le n _)) by lia.
  rewrite balance_set_balance, bool_decide_false by (intros [_ ?]; congruence).
  rewrite i128_fits by (unfold i128_min; lia). cbn [bind]. eexists. split; [done|]. rewrite !balance_set_balance.
  rewrite (bool_decide_false (tok = tok /\ to = from)), (bool_decide_true (tok = tok /\ from = from)), (bool_decide_true (tok = tok /\ to = to)) by (done || (intros [_ ?]; congruence)).
  split; [done|]. split; [done|]. intros k u H1 H2. rewrite !balance_set_balance, !bool_decide_false; [done|intros [-> ->]; done|intros [-> ->]; done].
Qed.

Lemma entries_one {V} (k : Z) (v : V) : entries ({[k := v]} : gmap Z V) = [(k, v)].
Proof. unfold entries. rewrite map_to_list_singleton. done. Qed.

(** ** One request *)
Lemma put_size m i v : (size (put m i v) <= size m \/ m !! i = None)%nat.
Proof.
  destruct (m !! i) as [x|] eqn:E; [left|by right]. unfold put. destruct (v =? 0).
  - rewrite <- (insert_delete m i x E) at 2. rewrite map_size_insert_None; [lia|apply lookup_delete].
  - rewrite map_size_insert_Some; [lia|by eexists].
Qed.

Definition loop0 (w : World) (a from : Addr) : Loop :=
  mkLoop (pool w a) (w_ext w) (pool_load (pool w a)) (get_pos (pool w a) from) no_actions false.

Lemma submit_one w sg a from to q s t1 t2 :
  reachable w -> from ∈ sg -> forallb ok_signer sg = true -> to <> a -> ps_init (pool w a) = true ->
  in_u32 (rq_type q) = true -> 0 <= rq_amt q <= i128_max ->
  require_action (pool_load (pool w a)) (rq_type q) = Ok tt ->
  do_request (ctx w sg) a from (loop0 w a from) q = Ok s ->
  lo_check s = false \/ po_liab (lo_pos s) = ∅ ->
  eff_count (lo_pos s) <= eff_count (get_pos (pool w a) from) ->
  (forall r, r ∈ ch_store (lo_ch s) -> is_Some (ch_res (lo_ch s) !! r)) ->
  foldM (fun t e => transfer (ctx w sg) t (fst e) from a (snd e)) (x_tok (lo_x s)) (entries (ac_spender (lo_ac s))) = Ok t1 ->
  foldM (fun t e => transfer (as_contract (ctx w sg) a) t (fst e) a to (snd e)) t1 (entries (ac_pool (lo_ac s))) = Ok t2 ->
  succeeds w (OPool sg a (PSubmit from from to [q])).
Proof.
  intros Hr Hsg Hok Hto Hi Hty Hamt Hreq Hdo Hchk Hcnt Hst Ht1 Ht2.
  assert (w_pools w !! a = Some (pool w a)) as Hp. { unfold pool in *. destruct (w_pools w !! a); [done|]. discriminate Hi. }
  pose proof (pools_neg _ Hr _ _ Hp) as Hneg.
  assert (3 < from) as Hf3. { eapply forallb_forall in Hok; [|by apply elem_of_list_In]. unfold ok_signer in Hok. by apply Z.ltb_lt. }
  unfold succeeds, exec. rewrite Hok, Hp. assert (ty_pop (PSubmit from from to [q]) = true) as ->.
  { simpl. rewrite Hty, andb_true_r. apply in_i128_iff. unfold i128_min. lia. }
  cbn [andb unwrap bind]. unfold p_exec. cbn [px_p px_x]. rewrite Hi. cbn [negb].
  unfold p_submit. rewrite (auth_of _ _ _ Hsg). cbn [bind]. rewrite Z.eqb_refl. cbn [bind px_p px_x].
  rewrite (proj2 (Z.eqb_neq from a)), (proj2 (Z.eqb_neq to a)) by lia. cbn [orb negb].
  unfold build_actions. cbn [foldM]. fold (loop0 w a from). rewrite Hdo. cbn [bind].
  unfold require_under_max. rewrite (proj2 (Z.ltb_ge _ _) Hcnt). cbn [andb bind].
  unfold check_hf. assert (lo_check s && negb (bool_decide (po_liab (lo_pos s) = ∅)) = false) as ->.
  { destruct Hchk as [->| ->]; [done|]. rewrite bool_decide_true by done. by rewrite andb_false_r. }
  cbn [bind]. unfold transfer_all. rewrite Ht1. cbn [bind].
  unfold store_cached. destruct (store_total (lo_ch s) (ch_store (lo_ch s)) Hst (lo_p s)) as [p' ->]. cbn [bind].
  rewrite Ht2. cbn [bind]. eauto.
Qed.

(** the reserve loaded into an empty cache *)
Lemma load_first w a r res : load_res (w_now w) (ps_config (pool w a)) (pool w a) r = Ok res -> r_asset res = r ->
  exists ch, load_reserve (w_now w) (pool w a) (pool_load (pool w a)) r true = Ok (res, ch) /\
    forall res', r_asset res' = r -> forall q, q ∈ ch_store (cache_reserve ch res') -> is_Some (ch_res (cache_reserve ch res') !! q).
Proof.
  intros Hl Ha. unfold load_reserve, pool_load. cbn [ch_store existsb negb andb app ch_res ch_cfg set]. simpl. rewrite lookup_empty, Hl. cbn [bind].
  eexists. split; [done|]. simpl. intros res' Ha' q Hq. apply elem_of_list_singleton in Hq as ->. rewrite Ha', lookup_insert. eauto.
Qed.

(** what a loaded reserve looks like *)
Lemma loaded w a r cfg d : reachable w -> accruable w a r -> ps_rcfg (pool w a) !! r = Some cfg -> reserve w a r = Some d ->
  exists res, load_res (w_now w) (ps_config (pool w a)) (pool w a) r = Ok res /\ r_asset res = r /\ r_index res = rc_index cfg /\
    r_scalar res = 10 ^ rc_decimals cfg /\ r_data res = data_at (w_now w) (pool w a) r /\
    rd_b_supply (r_data res) = rd_b_supply d /\ rd_d_supply (r_data res) = rd_d_supply d /\ rd_ok (r_data res).
Proof.
  intros Hr Hac Hc Hd. destruct (load_res_total w a r Hr Hac) as (res & Hl & Ha & _). exists res.
  pose proof (load_res_fields _ _ _ _ _ Hl) as (cfg' & d' & Hc' & Hd' & _ & Hi & _ & _ & _ & Hs & Hacc).
  unfold reserve in Hd. assert (cfg' = cfg) by congruence. assert (d' = d) by congruence. subst cfg' d'.
  pose proof (init_of_data w a r d Hr Hd) as G.
  pose proof (accrue_spec _ _ _ _ _ (good_rd _ _ _ G Hd) (cw_valid _ (gd_cfg _ G) _ _ Hc) (cw_rate _ (gd_cfg _ G)) Hacc) as (W & H1 & H2 & _).
  split; [done|]. split; [done|]. split; [done|]. split; [done|]. split; [unfold data_at; by rewrite Hc, Hd, Hacc|]. done.
Qed.

(** ** Withdrawals *)
(** C55: whatever the pool's status, a supplier takes out any amount that the pool holds - of
    the supply that is not collateral, and of collateral as long as there is no debt *)
Theorem C55_withdraw_possible : forall w sg a from to t r n cfg d,
  reachable w -> from ∈ sg -> forallb ok_signer sg = true -> to <> a ->
  ps_rcfg (pool w a) !! r = Some cfg -> reserve w a r = Some d ->
  t = 1 \/ (t = 3 /\ po_liab (positions w a from) = ∅) ->
  let rate := b_rate_now w a r in
  let mine := if t =? 1 then supplied (account w a from) r else collateral (account w a from) r in
  let pay := if mine <? up n rate then mine * rate / 1000000000 else n in
  0 < n -> 0 < mine ->
  (* the pool holds the tokens *)
  pay <= held w r a ->
  (* interest can be computed and 128-bit integers suffice *)
  accruable w a r -> emis_fits (w_now w) (pool w a) from (rc_index cfg * 2 + 1) ->
  n * 1000000000 <= i128_max -> mine * rate <= i128_max -> rd_b_supply d <= i128_max -> held w r to + pay <= i128_max ->
  succeeds w (OPool sg a (PSubmit from from to [mkReq t r n])).
Proof.
  intros w sg a from to t r n cfg d Hr Hsg Hok Hto Hc Hd Ht rate mine pay Hn Hmine Hheld Hac Hem F1 F2 F3 F4.
  pose proof (init_of_data w a r d Hr Hd) as G. pose proof (gd_init _ G) as Hi.
  destruct (loaded w a r cfg d Hr Hac Hc Hd) as (res & Hl & Hra & Hri & Hrs & Hrd & Hbs & Hds & W).
  destruct (load_first w a r res Hl Hra) as (ch & Hlr & Hst).
  assert (rd_b_rate (r_data res) = rate) as Hrate by (rewrite Hrd; done).
  assert (SCALAR_9 <= rate) as Hr9 by (rewrite <- Hrate; apply W). vals.
  pose proof (reachable_tok_nonneg w Hr r to) as Hnn.
  destruct (tok_of_tid (pool w a) KSup r cfg d from G Hc Hd) as (_ & Ha & Hb & Hsu & Hun). cbn [tid sup_k ebal] in *.
  set (i := rc_index cfg) in *. set (pos := get_pos (pool w a) from) in *.
  pose proof (pos_ok_getz (pool w a) from KSup i (gd_pos _ G)) as P1. pose proof (pos_ok_getz (pool w a) from KColl i (gd_pos _ G)) as P2.
  cbn [get_k] in P1, P2. fold pos in P1, P2.
  change (getz (po_sup pos) i) with (get_sup pos i) in P1. change (getz (po_coll pos) i) with (get_coll pos i) in P2.
  pose proof (tok_list (pool w a) (i * 2 + 1) [from] G ltac:(rewrite Ha; eauto) ltac:(apply NoDup_singleton)) as Htl.
  rewrite sumz_cons, sumz_nil, Hb, Hsu in Htl.
  assert (supplied (account w a from) r = get_sup pos i /\ collateral (account w a from) r = get_coll pos i) as [A1 A2].
  { unfold account, sup_of, coll_of, index_of, amount_at. simpl. rewrite Hc. done. }
  set (tb := if mine <? up n rate then mine else up n rate).
  assert (0 < up n rate) as Hup. { unfold up. pose proof (cdiv_spec (n * 1000000000) rate ltac:(lia)). nia. }
  assert (0 < tb <= mine) as Htb by (unfold tb; destruct (Z.ltb_spec mine (up n rate)); lia).
  assert (b_up (r_data res) n = Ok (up n rate)) as Hbup. { unfold b_up. rewrite Hrate. apply fdiv_ceil_fits; vals; lia. }
  assert (forall cur, cur = mine -> (if cur <? up n rate then let? o := asset_from_b (r_data res) cur in Ok (cur, o) else Ok (up n rate, n)) = Ok (tb, pay)) as Hout.
  { intros cur ->. unfold tb, pay. destruct (mine <? up n rate); [|done]. unfold asset_from_b. rewrite Hrate. vals. rewrite fmul_floor_fits; [done| |lia]. unfold i128_max in *. split; [apply Z.mul_nonneg_nonneg; lia|exact F2]. }
  assert (0 <= pay) as Hpay. { unfold pay. destruct (mine <? up n rate); [apply Z.div_pos; nia|lia]. }
  (* emissions *)
  destruct (emissions_total (w_now w) (pool w a) (pool w a) from (i * 2 + 1) (tok_bal (pool w a) from (i * 2 + 1)) G (reachable_emis w a Hr) Hem) as (n1 & q1 & E1 & U1); [done|done|].
  rewrite Hb, Hsu, Hun in E1.
  (* the transfer *)
  destruct (move_total (x_tok (w_ext w)) r a to pay ltac:(congruence)) as (t2 & Et & _); [unfold held in *; lia|done|done|].
  assert (get_total pos i = Ok (get_coll pos i + get_sup pos i)) as Htot. { unfold get_total. apply i128_ok_nonneg. unfold i128_max in *. lia. }
  assert (forall s, do_request (ctx w sg) a from (loop0 w a from) (mkReq t r n) = Ok s ->
      lo_check s = false \/ po_liab (lo_pos s) = ∅ -> eff_count (lo_pos s) <= eff_count pos ->
      (forall r, r ∈ ch_store (lo_ch s) -> is_Some (ch_res (lo_ch s) !! r)) -> lo_x s = w_ext w ->
      lo_ac s = mkActs ∅ {[r := pay]} -> succeeds w (OPool sg a (PSubmit from from to [mkReq t r n]))) as Hfin.
  { intros s H1 H2 H3 H4 H5 H6. eapply (submit_one w sg a from to _ s (x_tok (w_ext w)) t2); try done.
    - apply in_u32_iff. unfold u32_max. simpl. lia.
    - simpl. unfold i128_max in *. lia.
    - unfold require_action. simpl. destruct Ht as [->|[-> _]]; simpl; by rewrite !andb_false_r.
    - rewrite H5, H6. cbn [ac_spender]. rewrite entries_empty. done.
    - rewrite H6. cbn [ac_pool]. rewrite entries_one. cbn [foldM fst snd]. unfold transfer, need_auth, as_contract. cbn [c_auth ctx].
      rewrite Z.eqb_refl, orb_true_r. cbn [bind]. rewrite Et. done. }
  destruct Ht as [->|[-> Hno]]; simpl (_ =? _) in mine.
  - assert (mine = get_sup pos i) as Hm by (unfold mine; exact A1).
    refine (Hfin (mkLoop q1 (w_ext w) (cache_reserve ch (set_b_supply res (rd_b_supply d - tb))) (pos <| po_sup := put (po_sup pos) i (get_sup pos i - tb) |>) (mkActs ∅ {[r := pay]}) false) _ _ _ _ _ _); [|by left| |by apply Hst|done|done].
    + unfold do_request. cbn [rq_amt rq_type]. unfold p_nonneg. rewrite (proj2 (Z.ltb_ge n 0)) by lia. cbn [bind].
      unfold require_action. simpl (_ =? _). cbn [orb]. rewrite !andb_false_r. cbn [orb bind c_now ctx].
      unfold do_withdraw. cbn [lo_p lo_ch rq_addr rq_amt loop0 lo_pos lo_ac lo_x lo_check]. rewrite Hlr. cbn [bind]. fold pos. rewrite Hri. fold i. rewrite Hbup. cbn [bind].
      rewrite (Hout (get_sup pos i) (eq_sym Hm)). cbn [bind].
      unfold remove_supply. rewrite (proj2 (Z.eqb_neq tb 0)) by lia. cbn [negb]. rewrite Hri. fold i. rewrite Htot. cbn [bind].
      unfold upd_b_emis. rewrite Hri. fold i. rewrite Hbs, Hrs, E1. cbn [bind].
      rewrite i128_ok_nonneg by (unfold i128_max in *; lia). cbn [bind]. unfold p_nonneg. rewrite (proj2 (Z.ltb_ge _ 0)) by lia. cbn [bind].
      rewrite i128_ok_nonneg by (unfold i128_max in *; lia). cbn [bind]. unfold add_pool, no_actions. cbn [ac_pool]. rewrite lookup_empty. cbn [default].
      unfold held in *. rewrite i128_ok_nonneg by (unfold i128_max in *; lia). cbn [bind]. unfold set_b_supply at 2. cbn [r_asset set]. simpl. rewrite Hra, Z.add_0_r. done.
    + unfold eff_count. simpl. lia.
  - assert (mine = get_coll pos i) as Hm by (unfold mine; exact A2).
    assert (po_liab pos = ∅) as Hno' by exact Hno.
    refine (Hfin (mkLoop q1 (w_ext w) (cache_reserve ch (set_b_supply res (rd_b_supply d - tb))) (pos <| po_coll := put (po_coll pos) i (get_coll pos i - tb) |>) (mkActs ∅ {[r := pay]}) true) _ _ _ _ _ _); [| |  |by apply Hst|done|done].
    + unfold do_request. cbn [rq_amt rq_type]. unfold p_nonneg. rewrite (proj2 (Z.ltb_ge n 0)) by lia. cbn [bind].
      unfold require_action. simpl (_ =? _). cbn [orb]. rewrite !andb_false_r. cbn [orb bind c_now ctx].
      unfold do_withdraw_coll. cbn [lo_p lo_ch rq_addr rq_amt loop0 lo_pos lo_ac lo_x lo_check]. rewrite Hlr. cbn [bind]. fold pos. rewrite Hri. fold i. rewrite Hbup. cbn [bind].
      rewrite (Hout (get_coll pos i) (eq_sym Hm)). cbn [bind].
      unfold remove_collateral. rewrite (proj2 (Z.eqb_neq tb 0)) by lia. cbn [negb]. rewrite Hri. fold i. rewrite Htot. cbn [bind].
      unfold upd_b_emis. rewrite Hri. fold i. rewrite Hbs, Hrs, E1. cbn [bind].
      rewrite i128_ok_nonneg by (unfold i128_max in *; lia). cbn [bind]. unfold p_nonneg. rewrite (proj2 (Z.ltb_ge _ 0)) by lia. cbn [bind].
      rewrite i128_ok_nonneg by (unfold i128_max in *; lia). cbn [bind]. unfold add_pool, no_actions. cbn [ac_pool]. rewrite lookup_empty. cbn [default].
      unfold held in *. rewrite i128_ok_nonneg by (unfold i128_max in *; lia). cbn [bind]. unfold set_b_supply at 2. cbn [r_asset set]. simpl. rewrite Hra, Z.add_0_r. done.
    + right. simpl. exact Hno'.
    + unfold eff_count. simpl. destruct (put_size (po_coll pos) i (get_coll pos i - tb)) as [|Hnone]; [lia|]. unfold get_coll, getz in Hm. rewrite Hnone in Hm. simpl in Hm. lia.
Qed.

(** ** Repayments *)
(** C55: whatever the pool's status, a borrower repays any amount that covers at least one
    dToken; what the debt does not need is paid out to [to] *)
Theorem C55_repay_possible : forall w sg a from to r n cfg d,
  reachable w -> from ∈ sg -> forallb ok_signer sg = true -> to <> a ->
  ps_rcfg (pool w a) !! r = Some cfg -> reserve w a r = Some d ->
  let rate := d_rate_now w a r in
  let debt := owed (account w a from) r in
  let refund := if debt <? down n rate then n - cdiv (debt * rate) 1000000000 else 0 in
  0 < debt ->
  (* the amount is at least the value of one dToken, and the borrower has it *)
  rate <= n * 1000000000 -> n <= held w r from ->
  (* interest can be computed and 128-bit integers suffice *)
  accruable w a r -> emis_fits (w_now w) (pool w a) from (rc_index cfg * 2) ->
  n * 1000000000 <= i128_max -> debt * rate <= i128_max -> rd_d_supply d <= i128_max ->
  held w r a + n <= i128_max -> held w r to + refund <= i128_max ->
  succeeds w (OPool sg a (PSubmit from from to [mkReq 5 r n])).
Proof.
  intros w sg a from to r n cfg d Hr Hsg Hok Hto Hc Hd rate debt refund Hdebt Hone Hfunds Hac Hem F1 F2 F3 F4 F5.
  pose proof (init_of_data w a r d Hr Hd) as G. pose proof (gd_init _ G) as Hi.
  assert (w_pools w !! a = Some (pool w a)) as Hp. { unfold pool in *. destruct (w_pools w !! a); [done|]. discriminate Hi. }
  pose proof (pools_neg _ Hr _ _ Hp) as Hneg.
  assert (3 < from) as Hf3. { pose proof Hok as Hok'. eapply forallb_forall in Hok'; [|by apply elem_of_list_In]. unfold ok_signer in Hok'. by apply Z.ltb_lt. }
  destruct (loaded w a r cfg d Hr Hac Hc Hd) as (res & Hl & Hra & Hri & Hrs & Hrd & Hbs & Hds & W).
  destruct (load_first w a r res Hl Hra) as (ch & Hlr & Hst).
  assert (rd_d_rate (r_data res) = rate) as Hrate by (rewrite Hrd; done).
  assert (SCALAR_9 <= rate) as Hr9 by (rewrite <- Hrate; apply W). vals.
  pose proof (reachable_tok_nonneg w Hr r) as Hnn.
  destruct (tok_of_tid (pool w a) KLiab r cfg d from G Hc Hd) as (_ & Ha & Hb & Hsu & Hun). cbn [tid sup_k ebal] in *.
  set (i := rc_index cfg) in *. set (pos := get_pos (pool w a) from) in *.
  pose proof (tok_list (pool w a) (i * 2) [from] G ltac:(rewrite Ha; eauto) ltac:(apply NoDup_singleton)) as Htl.
  rewrite sumz_cons, sumz_nil, Hb, Hsu in Htl.
  assert (debt = get_liab pos i) as Hm.
  { unfold debt, account, liab_of, index_of, amount_at. simpl. rewrite Hc. done. }
  assert (1 <= down n rate) as Hdn. { unfold down. apply Z.div_le_lower_bound; lia. }
  set (burnt := if debt <? down n rate then debt else down n rate).
  assert (0 < burnt <= debt) as Hbu by (unfold burnt; destruct (Z.ltb_spec debt (down n rate)); lia).
  assert (d_down (r_data res) n = Ok (down n rate)) as Hdd. { unfold d_down. rewrite Hrate. apply fdiv_floor_fits; vals; lia. }
  assert (0 <= refund <= n) as Href.
  { unfold refund. destruct (Z.ltb_spec debt (down n rate)) as [Hlt|]; [|lia].
    assert (debt * rate <= n * 1000000000).
    { pose proof (Z.mul_div_le (n * 1000000000) rate ltac:(lia)) as Hle. unfold down in Hlt.
      assert (debt * rate <= rate * (n * 1000000000 / rate)) by (rewrite (Z.mul_comm debt); apply Z.mul_le_mono_nonneg_l; lia). lia. }
    assert (0 <= debt * rate) by (apply Z.mul_nonneg_nonneg; lia).
    pose proof (cdiv_spec (debt * rate) 1000000000 ltac:(lia)). lia. }
  (* emissions *)
  destruct (emissions_total (w_now w) (pool w a) (pool w a) from (i * 2) (tok_bal (pool w a) from (i * 2)) G (reachable_emis w a Hr) Hem) as (n1 & q1 & E1 & U1); [done|done|].
  rewrite Hb, Hsu, Hun in E1.
  (* the transfers *)
  unfold held in *.
  destruct (move_total (x_tok (w_ext w)) r from a n ltac:(lia)) as (t1 & Et1 & B1 & B2 & B3); [unfold i128_max in *; lia|done|done|].
  destruct (move_total t1 r a to refund ltac:(congruence)) as (t2 & Et2 & _).
  { rewrite B2. pose proof (Hnn a). lia. }
  { destruct (Z.eq_dec to from) as [->|Hne]; [rewrite B1; lia|]. rewrite B3 by congruence. apply Hnn. }
  { destruct (Z.eq_dec to from) as [->|Hne]; [rewrite B1; unfold i128_max in *; lia|]. rewrite B3 by congruence. unfold i128_max in *; lia. }
  assert (i128 (rd_d_supply d - burnt) = Ok (rd_d_supply d - burnt)) as K1 by (apply i128_ok_nonneg; unfold i128_max in *; lia).
  assert (i128 (get_liab pos i - burnt) = Ok (get_liab pos i - burnt)) as K2 by (apply i128_ok_nonneg; unfold i128_max in *; lia).
  assert (remove_liabilities (w_now w) (pool w a) from pos res burnt =
    Ok (q1, pos <| po_liab := put (po_liab pos) i (get_liab pos i - burnt) |>, set_d_supply res (rd_d_supply d - burnt))) as Hrem.
  { unfold remove_liabilities. rewrite (proj2 (Z.eqb_neq burnt 0)) by lia. cbn [negb]. unfold upd_d_emis. rewrite Hri. fold i. rewrite Hds, Hrs, E1.
    cbn [bind]. rewrite K2. cbn [bind]. unfold p_nonneg. rewrite (proj2 (Z.ltb_ge _ 0)) by lia. cbn [bind]. rewrite K1. done. }
  set (acp := if debt <? down n rate then {[r := refund]} else ∅ : gmap Addr Z).
  apply (submit_one w sg a from to _ (mkLoop q1 (w_ext w) (cache_reserve ch (set_d_supply res (rd_d_supply d - burnt)))
    (pos <| po_liab := put (po_liab pos) i (get_liab pos i - burnt) |>) (mkActs {[r := n]} acp) false) t1 (if debt <? down n rate then t2 else t1)); try done.
  - simpl. unfold i128_max in *. lia.
  - unfold require_action. simpl. by rewrite !andb_false_r.
  - unfold do_request. cbn [rq_amt rq_type]. unfold p_nonneg. rewrite (proj2 (Z.ltb_ge n 0)) by lia. cbn [bind].
    unfold require_action. simpl (_ =? _). cbn [orb]. rewrite !andb_false_r. cbn [orb bind c_now ctx].
    unfold do_repay. cbn [lo_p lo_ch rq_addr rq_amt loop0 lo_pos lo_ac lo_x lo_check]. rewrite Hlr. cbn [bind]. fold pos. rewrite Hri. fold i. rewrite Hdd. cbn [bind].
    unfold add_spender, no_actions. cbn [ac_spender]. rewrite lookup_empty. cbn [default].
    rewrite Z.add_0_r, i128_ok_nonneg by (unfold i128_max in *; lia). cbn [bind]. rewrite <- Hm.
    unfold acp, burnt, refund in *. destruct (debt <? down n rate).
    + unfold asset_from_d. rewrite Hrate. vals. rewrite fmul_ceil_fits' by (unfold i128_max in *; (split; [apply Z.mul_nonneg_nonneg; lia|lia]) || lia). cbn [bind].
      rewrite i128_ok_nonneg by (unfold i128_max in *; lia). cbn [bind]. unfold p_nonneg. rewrite (proj2 (Z.ltb_ge _ 0)) by lia. cbn [bind].
      rewrite Hrem. cbn [bind]. unfold add_pool. cbn [ac_pool set]. simpl. rewrite lookup_empty. cbn [default].
      rewrite Z.add_0_r, i128_ok_nonneg by (unfold i128_max in *; lia). cbn [bind]. rewrite Hra, Hm. done.
    + rewrite Hrem. cbn [bind]. rewrite Hra, Hm. done.
  - by left.
  - unfold eff_count. simpl. destruct (put_size (po_liab pos) i (get_liab pos i - burnt)) as [|Hnone]; [fold pos; lia|]. unfold get_liab, getz in Hm. rewrite Hnone in Hm. simpl in Hm. lia.
  - by apply Hst.
  - simpl. rewrite entries_one. cbn [foldM fst snd]. unfold transfer. rewrite (auth_of _ _ _ Hsg). cbn [bind]. rewrite Et1. done.
  - simpl. unfold acp. destruct (debt <? down n rate); [|by rewrite entries_empty]. rewrite entries_one. cbn [foldM fst snd]. unfold transfer, need_auth, as_contract. cbn [c_auth ctx].
    rewrite Z.eqb_refl, orb_true_r. cbn [bind]. rewrite Et2. done.
Qed.

(** ** Deposits *)
(** C55: unless the pool is frozen (status 4, 5) or in setup (6), anybody supplies any amount
    that is worth at least one bToken *)
Theorem C55_supply_possible : forall w sg a from to r n cfg d,
  reachable w -> from ∈ sg -> forallb ok_signer sg = true -> to <> a ->
  ps_rcfg (pool w a) !! r = Some cfg -> reserve w a r = Some d ->
  let rate := b_rate_now w a r in
  status w a <= 3 ->
  rate <= n * 1000000000 -> n <= held w r from ->
  (* interest can be computed and 128-bit integers suffice *)
  accruable w a r -> emis_fits (w_now w) (pool w a) from (rc_index cfg * 2 + 1) ->
  n * 1000000000 <= i128_max -> rd_b_supply d + down n rate <= i128_max -> held w r a + n <= i128_max ->
  succeeds w (OPool sg a (PSubmit from from to [mkReq 0 r n])).
Proof.
  intros w sg a from to r n cfg d Hr Hsg Hok Hto Hc Hd rate Hstat Hone Hfunds Hac Hem F1 F2 F3.
  pose proof (init_of_data w a r d Hr Hd) as G. pose proof (gd_init _ G) as Hi.
  assert (w_pools w !! a = Some (pool w a)) as Hp. { unfold pool in *. destruct (w_pools w !! a); [done|]. discriminate Hi. }
  pose proof (pools_neg _ Hr _ _ Hp) as Hneg.
  assert (3 < from) as Hf3. { pose proof Hok as Hok'. eapply forallb_forall in Hok'; [|by apply elem_of_list_In]. unfold ok_signer in Hok'. by apply Z.ltb_lt. }
  destruct (loaded w a r cfg d Hr Hac Hc Hd) as (res & Hl & Hra & Hri & Hrs & Hrd & Hbs & Hds & W).
  destruct (load_first w a r res Hl Hra) as (ch & Hlr & Hst).
  assert (rd_b_rate (r_data res) = rate) as Hrate by (rewrite Hrd; done).
  assert (SCALAR_9 <= rate) as Hr9 by (rewrite <- Hrate; apply W). vals.
  pose proof (reachable_tok_nonneg w Hr r) as Hnn.
  destruct (tok_of_tid (pool w a) KSup r cfg d from G Hc Hd) as (_ & Ha & Hb & Hsu & Hun). cbn [tid sup_k ebal] in *.
  set (i := rc_index cfg) in *. set (pos := get_pos (pool w a) from) in *.
  pose proof (pos_ok_getz (pool w a) from KSup i (gd_pos _ G)) as P1. pose proof (pos_ok_getz (pool w a) from KColl i (gd_pos _ G)) as P2.
  cbn [get_k] in P1, P2. fold pos in P1, P2.
  change (getz (po_sup pos) i) with (get_sup pos i) in P1. change (getz (po_coll pos) i) with (get_coll pos i) in P2.
  pose proof (tok_list (pool w a) (i * 2 + 1) [from] G ltac:(rewrite Ha; eauto) ltac:(apply NoDup_singleton)) as Htl.
  rewrite sumz_cons, sumz_nil, Hb, Hsu in Htl.
  assert (1 <= down n rate) as Hdn. { unfold down. apply Z.div_le_lower_bound; lia. }
  assert (b_down (r_data res) n = Ok (down n rate)) as Hdd. { unfold b_down. rewrite Hrate. apply fdiv_floor_fits; vals; lia. }
  destruct (emissions_total (w_now w) (pool w a) (pool w a) from (i * 2 + 1) (tok_bal (pool w a) from (i * 2 + 1)) G (reachable_emis w a Hr) Hem) as (n1 & q1 & E1 & U1); [done|done|].
  rewrite Hb, Hsu, Hun in E1.
  assert (get_total pos i = Ok (get_coll pos i + get_sup pos i)) as Htot. { unfold get_total. apply i128_ok_nonneg. unfold i128_max in *. lia. }
  unfold held in *.
  destruct (move_total (x_tok (w_ext w)) r from a n ltac:(lia)) as (t1 & Et1 & B1 & B2 & B3); [unfold i128_max in *; lia|done|done|].
  apply (submit_one w sg a from to _ (mkLoop q1 (w_ext w) (cache_reserve ch (set_b_supply res (rd_b_supply d + down n rate)))
    (pos <| po_sup := <[i := get_sup pos i + down n rate]> (po_sup pos) |>) (mkActs {[r := n]} ∅) false) t1 t1); try done.
  - simpl. unfold i128_max in *. lia.
  - unfold require_action. simpl. change (pc_status (ps_config (pool w a))) with (status w a). rewrite (proj2 (Z.ltb_ge 3 (status w a))) by lia. by rewrite andb_false_r.
  - unfold do_request. cbn [rq_amt rq_type]. unfold p_nonneg. rewrite (proj2 (Z.ltb_ge n 0)) by lia. cbn [bind].
    unfold require_action. simpl (_ =? _). cbn [orb]. cbn [lo_ch loop0]. change (pc_status (ch_cfg (pool_load (pool w a)))) with (status w a).
    rewrite (proj2 (Z.ltb_ge 3 (status w a))) by lia. rewrite !andb_false_r. cbn [orb bind c_now ctx andb].
    unfold do_supply. cbn [lo_p lo_ch rq_addr rq_amt loop0 lo_pos lo_ac lo_x lo_check]. rewrite Hlr. cbn [bind]. fold pos. rewrite Hdd. cbn [bind].
    unfold add_supply. rewrite (proj2 (Z.eqb_neq (down n rate) 0)) by lia. cbn [negb]. rewrite Hri. fold i. rewrite Htot. cbn [bind].
    unfold upd_b_emis. rewrite Hri. fold i. rewrite Hbs, Hrs, E1. cbn [bind].
    rewrite i128_ok_nonneg by (unfold i128_max in *; lia). cbn [bind]. rewrite i128_ok_nonneg by (unfold i128_max in *; lia). cbn [bind].
    unfold add_spender, no_actions. cbn [ac_spender]. rewrite lookup_empty. cbn [default].
    rewrite Z.add_0_r, i128_ok_nonneg by (unfold i128_max in *; lia). cbn [bind]. unfold set_b_supply at 1. cbn [r_asset set]. simpl. rewrite Hra. done.
  - by left.
  - by apply Hst.
  - simpl. rewrite entries_one. cbn [foldM fst snd]. unfold transfer. rewrite (auth_of _ _ _ Hsg). cbn [bind]. rewrite Et1. done.
Qed.
