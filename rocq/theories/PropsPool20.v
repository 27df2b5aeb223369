(** * Healthy borrowers can borrow and take out collateral: C60 *)
From Verif Require Import Base Types Token Emitter Factory Backstop PoolReserve PoolUser PoolHealth
  PoolAuction PoolSubmit PoolEmis PoolAdmin World Facts XMove Spec PoolFrame PoolCfg PoolAccrue PoolTrace PoolInv AuctionFacts
  PoolSim PoolReq PoolHF PoolOps PoolLiq PoolReach PoolTx PoolEmisInv FrameFacts PropsAdmin BackMoves PropsBackstop PropsBackstop5 PropsPool1 PropsPool2 PropsPool3
  PropsPool4 PropsPool5 PropsPool7 PropsPool9 PropsPool10 PoolLive PropsPool13 PropsPool15 PropsPool16.

(** ** Specification *)
(** the account [pos] of the pool at [a] has a health factor of at least 1.00001 at the oracle prices
    ([dec] decimals): factor-weighted collateral over factor-weighted debt *)
Definition healthy (w : World) (a : Addr) (dec : Z) (pos : Positions) : Prop :=
  eff_liab (w_now w) (pool w a) (w_ext w) pos * (10 ^ dec * 10000100 / 10000000)
    <= eff_coll (w_now w) (pool w a) (w_ext w) pos * 10 ^ dec.
(** every asset of [pos] can be valued, and 128-bit integers suffice for the sums *)
Definition all_valued (w : World) (a : Addr) (dec : Z) (pos : Positions) : Prop :=
  o_dec (x_orc (w_ext w)) !! pc_oracle (ps_config (pool w a)) = Some dec /\ dec <= 18 /\
  (forall r, r ∈ reserve_list w a -> 0 <= price_of (pool w a) (w_ext w) r) /\
  (forall (i : nat) r, reserve_list w a !! i = Some r -> get_coll pos (Z.of_nat i) <> 0 \/ get_liab pos (Z.of_nat i) <> 0 ->
     valued w a r (get_coll pos (Z.of_nat i)) (get_liab pos (Z.of_nat i))) /\
  raw_coll (w_now w) (pool w a) (w_ext w) pos * 10 ^ dec <= i128_max /\ eff_liab (w_now w) (pool w a) (w_ext w) pos <= i128_max.

(** ** Valuation from an empty cache *)
Lemma position_at w a pos dec :
  reachable w -> ps_init (pool w a) = true -> all_valued w a dec pos -> (forall k j, 0 <= getz (get_k k pos) j) ->
  exists d ch, position_data (w_now w) (pool w a) (w_ext w) (pool_load (pool w a)) pos = Ok (d, ch) /\
    hd_coll_base d = eff_coll (w_now w) (pool w a) (w_ext w) pos /\ hd_liab_base d = eff_liab (w_now w) (pool w a) (w_ext w) pos /\
    hd_scalar d = 10 ^ dec /\ 0 <= hd_coll_base d <= raw_coll (w_now w) (pool w a) (w_ext w) pos /\ 0 <= hd_liab_base d.
Proof.
  intros Hr Hi (Hdec & Hd18 & Hpr & Hval & F1 & F2) Hpos. pose proof (reachable_good w a Hr Hi) as G.
  pose proof (reachable_dec _ _ _ Hr Hdec) as Hd0.
  set (p := pool w a) in *. set (x := w_ext w) in *. set (now := w_now w) in *.
  assert (forall (i : nat) r, reserve_list w a !! i = Some r -> get_liab pos (Z.of_nat i) <> 0 -> 0 < rc_l_factor (cfg_of p r)) as Hlf.
  { intros i r Hl Hn. destruct (Hval i r Hl ltac:(by right)) as (_ & _ & _ & _ & _ & _ & _ & V). by apply V. }
  destruct (raw_bounds now p x pos G Hpos Hpr Hlf) as [B1 B2].
  destruct (eff_nonneg now p x pos G (fun k i _ _ => Hpos k _) Hpr Hlf) as [B3 B4].
  assert (0 < 10 ^ dec) as Hs by (by apply Z.pow_pos_nonneg).
  assert (raw_coll now p x pos <= i128_max) as F1' by nia.
  assert (exists d ch, position_data now p x (pool_load p) pos = Ok (d, ch)) as (d & ch & E).
  { unfold position_data. unfold load_dec, pool_load at 1. cbn [ch_dec ch_cfg]. change (ch_cfg (pool_load p)) with (ps_config p). rewrite Hdec. cbn [unwrap bind].
    unfold pow10. rewrite i128_ok_nonneg; swap 1 2.
    { split; [apply Z.pow_nonneg; lia|]. pose proof (Z.pow_le_mono_r 10 dec 18 ltac:(lia) Hd18). unfold i128_max. lia. }
    cbn [bind].
    assert (forall i r, (i, r) ∈ indexed 0 (ps_list p) -> 0 <= i /\ reserve_list w a !! Z.to_nat i = Some r) as Hin.
    { intros i r Hx. apply indexed_in in Hx as [H1 H2]. rewrite Z.sub_0_r in H2. done. }
    destruct (health_total w a pos (indexed 0 (ps_list p)) 0 0 0 0 (pool_load p <| ch_dec := Some dec |>) Hr Hi) as [[[[[cb cr] lb] lr] ch] E].
    - rewrite indexed_snd. apply (cw_nodup _ (gd_cfg _ G)).
    - exact Hin.
    - exact Hpos.
    - done.
    - intros i r _. split; apply lookup_empty.
    - intros i r Hx Hn. destruct (Hin i r Hx) as [Hi0 Hl]. specialize (Hval (Z.to_nat i) r Hl). rewrite Z2Nat.id in Hval by done. by apply Hval.
    - fold now p x. intros i r Hx. destruct (Hin i r Hx) as [Hi0 Hl].
      destruct (cw_idx _ (gd_cfg _ G) _ _ Hl) as (cfg & Hc & _).
      assert (cfg_of p r = cfg) as Hco by (unfold cfg_of; by rewrite Hc). destruct (cw_valid _ (gd_cfg _ G) _ _ Hc) as (D1 & D2 & D3 & _).
      destruct (data_rates now p r cfg G Hc) as [R1 R2]. unfold SCALAR_9 in R1, R2.
      assert (0 < 10 ^ rc_decimals cfg) by (apply Z.pow_pos_nonneg; lia). specialize (Hpr r ltac:(by eapply elem_of_list_lookup_2)).
      pose proof (Hpos KColl i) as Hb. pose proof (Hpos KLiab i) as Hd. cbn [get_k] in Hb, Hd.
      assert (0 <= b_assets now p r (get_coll pos i)) by (unfold b_assets, get_coll; apply Z.div_pos; nia).
      assert (0 <= d_assets now p r (get_liab pos i)) as Hda by (unfold d_assets, get_liab; apply cdiv_nonneg; nia).
      unfold coll_eff1, coll_raw1, liab_eff1, liab_raw1. rewrite Hco.
      split; [apply Z.div_pos; [|lia]; apply Z.mul_nonneg_nonneg; [lia|]; apply Z.div_pos; nia|].
      split; [apply Z.div_pos; nia|].
      destruct (Z.eq_dec (get_liab pos i) 0) as [Hz|Hz].
      { destruct (zero_values now p x r) as (_ & _ & Z3 & Z4). unfold liab_eff1, liab_raw1 in Z3, Z4. rewrite Hco in Z3, Z4. rewrite Hz, Z3, Z4. lia. }
      specialize (Hlf (Z.to_nat i) r Hl). rewrite Z2Nat.id, Hco in Hlf by done. specialize (Hlf Hz).
      split; apply cdiv_nonneg; try lia; apply Z.mul_nonneg_nonneg; try lia. apply cdiv_nonneg; lia.
    - lia.
    - lia.
    - lia.
    - lia.
    - fold now p x. change (0 + eff_coll now p x pos <= i128_max). lia.
    - fold now p x. change (0 + raw_coll now p x pos <= i128_max). lia.
    - fold now p x. change (0 + eff_liab now p x pos <= i128_max). lia.
    - fold now p x. change (0 + raw_liab now p x pos <= i128_max). lia.
    - fold now p x in E. rewrite E. cbn [bind]. eauto. }
  exists d, ch. split; [done|].
  eapply (position_data_spec now p x (pool_load p) pos ∅) in E as Es; [|apply pool_load_cwf|done|apply G|apply pool_load_pwf|exact Hpos].
  destruct Es as (_ & _ & _ & D1 & D2 & D3 & D4 & (dec' & Hdec' & D5) & _). assert (dec' = dec) by congruence. subst dec'.
  assert (flush p (pool_load p) ∅ = p) as Hfl. { rewrite flush_fresh. rewrite (left_id_L ∅ (∪)). by destruct p. }
  rewrite Hfl in D1, D2, D3, D4. rewrite D1, D3. repeat (split; [done|]). done.
Qed.

(** ** The same valuation with a reserve in the cache whose supplies have changed *)
Definition like (r r2 : Reserve) : Prop :=
  r_asset r2 = r_asset r /\ r_scalar r2 = r_scalar r /\ r_c_factor r2 = r_c_factor r /\ r_l_factor r2 = r_l_factor r /\
  rd_b_rate (r_data r2) = rd_b_rate (r_data r) /\ rd_d_rate (r_data r2) = rd_d_rate (r_data r).
Record alike (now : Z) (p p2 : PoolSt) (ch ch2 : Cache) : Prop := {
  al_cfg : ch_cfg ch2 = ch_cfg ch; al_dec : ch_dec ch2 = ch_dec ch; al_price : ch_price ch2 = ch_price ch;
  al_res : forall a r, load_reserve now p ch a false = Ok (r, ch) -> exists r2, load_reserve now p2 ch2 a false = Ok (r2, ch2) /\ like r r2
}.
Lemma load_noop now p ch a r ch' : load_reserve now p ch a false = Ok (r, ch') -> ch' = ch.
Proof. unfold load_reserve. cbn [andb]. destruct (ch_res ch !! a); [by intros [= _ <-]|]. intros H. apply bind_ok in H as (r' & _ & [= _ <-]). done. Qed.
Lemma health_one_alike now p p2 x pos acc ch ch2 ia acc' ch' :
  alike now p p2 ch ch2 -> health_one now p x pos (acc, ch) ia = Ok (acc', ch') ->
  exists ch2', health_one now p2 x pos (acc, ch2) ia = Ok (acc', ch2') /\ alike now p p2 ch' ch2' /\
    ch_store ch2' = ch_store ch2 /\ (forall a, is_Some (ch_res ch2 !! a) -> is_Some (ch_res ch2' !! a)).
Proof.
  intros A H. destruct acc as [[[cb cr] lb] lr]. unfold health_one in H |- *. destruct ((_ =? 0) && (_ =? 0)); [injection H as <- <-; eauto|].
  apply bind_ok in H as ([r ch1] & Hl & H). pose proof (load_noop _ _ _ _ _ _ Hl) as ->. destruct A as [A1 A2 A3 A4].
  destruct (A4 _ _ Hl) as (r2 & Hl2 & K). rewrite Hl2. cbn [bind]. destruct K as (K1 & K2 & K3 & K4 & K5 & K6).
  apply bind_ok in H as ([pr ch1] & Hp & H).
  assert (exists ch3, load_price now x ch2 (r_asset r2) = Ok (pr, ch3) /\ ch_cfg ch3 = ch_cfg ch1 /\ ch_dec ch3 = ch_dec ch1 /\ ch_price ch3 = ch_price ch1 /\
    ch_res ch3 = ch_res ch2 /\ ch_res ch1 = ch_res ch /\ ch_cfg ch1 = ch_cfg ch /\ ch_store ch3 = ch_store ch2) as (ch3 & Hp2 & B1 & B2 & B3 & B4 & B5 & B6 & B7).
  { unfold load_price in Hp |- *. rewrite K1, A3, A1. destruct (ch_price ch !! r_asset r).
    - injection Hp as <- <-. exists ch2. done.
    - apply bind_ok in Hp as (pd & Hpd & Hp). apply bind_ok in Hp as (t & Ht & Hp). apply assert_ok in Hp as [Hb [= <- <-]].
      rewrite Hpd. cbn [bind]. rewrite Ht. cbn [bind]. rewrite Hb. eexists. split; [reflexivity|]. simpl. rewrite ?A3. done. }
  rewrite Hp2. cbn [bind]. 
  apply bind_ok in H as ([cb' cr'] & H1 & H). apply bind_ok in H as ([lb' lr'] & H2 & [= <- <-]).
  unfold eff_asset_from_b, eff_asset_from_d, asset_from_b, asset_from_d in *. rewrite K2, K3, K4, K5, K6.
  rewrite H1. cbn [bind]. rewrite H2. cbn [bind]. eexists. split; [reflexivity|]. split; [|split].
  - constructor; simpl; [congruence..|]. intros q r' Hq. unfold load_reserve in Hq |- *. cbn [andb] in Hq |- *. simpl in Hq |- *. rewrite K1, B4. rewrite B5 in Hq.
    destruct (decide (q = r_asset r)) as [->|Hne].
    + rewrite lookup_insert in Hq |- *. injection Hq as <-. eexists. split; [reflexivity|]. done.
    + rewrite lookup_insert_ne in Hq |- * by done. rewrite B1. rewrite B6 in Hq |- *.
      assert (load_reserve now p ch q false = Ok (r', ch)) as Hq'.
      { unfold load_reserve. cbn [andb]. destruct (ch_res ch !! q); [by injection Hq as ->|]. apply bind_ok in Hq as (r3 & E3 & Hq). injection Hq as ->. by rewrite E3. }
      destruct (A4 _ _ Hq') as (r4 & E4 & L4). unfold load_reserve in E4. cbn [andb] in E4. rewrite A1 in E4.
      destruct (ch_res ch2 !! q); [injection E4 as ->; by eexists|]. apply bind_ok in E4 as (r5 & E5 & E4). injection E4 as ->. rewrite E5. by eexists.
  - simpl. done.
  - simpl. intros q Hq. rewrite B4. destruct (decide (q = r_asset r2)) as [->|]; [rewrite lookup_insert; eauto|by rewrite lookup_insert_ne].
Qed.
Lemma health_alike now p p2 x pos l : forall acc ch ch2 acc' ch',
  alike now p p2 ch ch2 -> foldM (health_one now p x pos) (acc, ch) l = Ok (acc', ch') ->
  exists ch2', foldM (health_one now p2 x pos) (acc, ch2) l = Ok (acc', ch2') /\
    ch_store ch2' = ch_store ch2 /\ (forall a, is_Some (ch_res ch2 !! a) -> is_Some (ch_res ch2' !! a)).
Proof.
  induction l as [|ia l IH]; intros acc ch ch2 acc' ch' A H.
  - injection H as <- <-. exists ch2. done.
  - cbn [foldM] in H |- *. apply bind_ok in H as ([acc1 ch1] & H1 & H). destruct (health_one_alike _ _ _ _ _ _ _ _ _ _ _ A H1) as (ch3 & -> & A3 & S3 & R3). cbn [bind].
    destruct (IH _ _ _ _ _ A3 H) as (ch4 & -> & S4 & R4). exists ch4. split; [done|]. split; [congruence|auto].
Qed.
Lemma position_alike now p p2 x pos ch ch2 d ch' :
  alike now p p2 ch ch2 -> ps_list p2 = ps_list p -> position_data now p x ch pos = Ok (d, ch') ->
  exists ch2', position_data now p2 x ch2 pos = Ok (d, ch2') /\ ch_store ch2' = ch_store ch2 /\ (forall a, is_Some (ch_res ch2 !! a) -> is_Some (ch_res ch2' !! a)).
Proof.
  intros A Hl H. unfold position_data in H |- *. apply bind_ok in H as ([dec ch1] & E & H). apply bind_ok in H as (sc & Es & H).
  apply bind_ok in H as ([[[[cb cr] lb] lr] ch3] & Ef & [= <- <-]).
  assert (exists ch4, load_dec x ch2 = Ok (dec, ch4) /\ alike now p p2 ch1 ch4 /\ ch_store ch4 = ch_store ch2 /\ ch_res ch4 = ch_res ch2) as (ch4 & -> & A4 & S4 & R4).
  { unfold load_dec in E |- *. pose proof A as [A1 A2 A3 A5]. rewrite A2. destruct (ch_dec ch); [injection E as <- <-; eexists; split; [reflexivity|]; done|].
    apply bind_ok in E as (d0 & Ed & [= <- <-]). rewrite A1, Ed. cbn [bind]. eexists. split; [reflexivity|]. split; [|done].
    constructor; [done..|]. intros q r Hq. unfold load_reserve in Hq |- *. cbn [andb] in Hq |- *. simpl in Hq |- *.
    assert (load_reserve now p ch q false = Ok (r, ch)) as Hq'.
    { unfold load_reserve. cbn [andb]. destruct (ch_res ch !! q); [by injection Hq as ->|]. apply bind_ok in Hq as (r3 & E3 & Hq). injection Hq as ->. by rewrite E3. }
    destruct (A5 _ _ Hq') as (r4 & E4 & L4). unfold load_reserve in E4. cbn [andb] in E4. 
    destruct (ch_res ch2 !! q); [injection E4 as ->; by eexists|]. apply bind_ok in E4 as (r5 & E5 & E4). injection E4 as ->. rewrite E5. by eexists. }
  cbn [bind]. rewrite Es. cbn [bind]. rewrite Hl. destruct (health_alike _ _ _ _ _ _ _ _ _ _ _ A4 Ef) as (ch5 & -> & S5 & R5). cbn [bind].
  eexists. split; [reflexivity|]. split; [congruence|]. intros q Hq. apply R5. by rewrite R4.
Qed.

(** ** One request followed by the health check *)
Lemma check_total w a sg p2 ch2 ac pos r res res2 dec :
  reachable w -> ps_init (pool w a) = true -> all_valued w a dec pos -> (forall k j, 0 <= getz (get_k k pos) j) -> healthy w a dec pos ->
  ps_list p2 = ps_list (pool w a) -> ps_rcfg p2 = ps_rcfg (pool w a) -> ps_rdata p2 = ps_rdata (pool w a) ->
  load_res (w_now w) (ps_config (pool w a)) (pool w a) r = Ok res -> like res res2 -> r_asset res = r ->
  ch_cfg ch2 = ps_config (pool w a) -> ch_dec ch2 = None -> ch_price ch2 = ∅ -> ch_res ch2 = {[r := res2]} -> ch_store ch2 = [r] ->
  exists ch3, check_hf (ctx w sg) (mkLoop p2 (w_ext w) ch2 pos ac true) = Ok ch3 /\ forall q, q ∈ ch_store ch3 -> is_Some (ch_res ch3 !! q).
Proof.
  intros Hr Hi Hval Hpos Hhf P1 P2 P3 Hl Hlike Hra C1 C2 C3 C4 C5. unfold check_hf. cbn [lo_check lo_pos lo_p lo_x lo_ch].
  destruct (true && _); [|exists ch2; split; [done|]; intros q; rewrite C5, C4; intros ->%elem_of_list_singleton; rewrite lookup_singleton; eauto].
  destruct (position_at w a pos dec Hr Hi Hval Hpos) as (d & ch & E & D1 & D2 & D3 & D4 & D5).
  destruct (position_alike (w_now w) (pool w a) p2 (w_ext w) pos (pool_load (pool w a)) ch2 d ch) as (ch3 & E3 & S3 & R3); [|done|done|].
  { constructor; [done..|]. intros q r' Hq. unfold load_reserve in Hq |- *. cbn [andb] in Hq |- *. simpl in Hq. rewrite lookup_empty in Hq.
    apply bind_ok in Hq as (r3 & E3 & Hq). injection Hq as ->. rewrite C4. destruct (decide (q = r)) as [->|Hne].
    - rewrite lookup_singleton. assert (r' = res) as -> by congruence. by eexists.
    - rewrite lookup_singleton_ne by done. rewrite C1. unfold load_res in E3 |- *. rewrite P2, P3, E3. cbn [bind]. eexists. split; [reflexivity|]. done. }
  change (c_now (ctx w sg)) with (w_now w). rewrite E3. cbn [bind].
  destruct Hval as (Hdec & Hd18 & _ & _ & F1 & F2). pose proof (reachable_dec _ _ _ Hr Hdec) as Hd0.
  assert (0 < 10 ^ dec) as Hs by (by apply Z.pow_pos_nonneg). assert (10 ^ dec <= 10 ^ 18) as Hs18 by (by apply Z.pow_le_mono_r).
  unfold is_hf_under. unfold healthy in Hhf. rewrite <- D1, <- D2 in Hhf. rewrite D3. set (S := 10 ^ dec) in *. clearbody S.
  destruct (Z.eqb_spec (hd_liab_base d) 0) as [Hz|Hz].
  - cbn [bind negb]. exists ch3. split; [done|]. intros q. rewrite S3, C5. intros ->%elem_of_list_singleton. apply R3. rewrite C4, lookup_singleton. eauto.
  - unfold SCALAR_7. rewrite fmul_floor_fits by (unfold i128_max; lia). cbn [bind]. unfold as_hf. rewrite D3. rewrite fdiv_floor_fits by nia. cbn [bind].
    rewrite (proj2 (Z.ltb_ge _ _)). 2: { apply Z.div_le_lower_bound; [lia|]. lia. }
    cbn [negb]. exists ch3. split; [done|]. intros q. rewrite S3, C5. intros ->%elem_of_list_singleton. apply R3. rewrite C4, lookup_singleton. eauto.
Qed.
Lemma submit_checked w sg a from to q s ch t1 t2 :
  reachable w -> from ∈ sg -> forallb ok_signer sg = true -> to <> a -> ps_init (pool w a) = true ->
  in_u32 (rq_type q) = true -> 0 <= rq_amt q <= i128_max ->
  do_request (ctx w sg) a from (loop0 w a from) q = Ok s ->
  check_hf (ctx w sg) s = Ok ch ->
  eff_count (lo_pos s) <= eff_count (get_pos (pool w a) from) \/ eff_count (lo_pos s) <= pc_max_positions (ch_cfg (lo_ch s)) ->
  (forall r, r ∈ ch_store ch -> is_Some (ch_res ch !! r)) ->
  foldM (fun t e => transfer (ctx w sg) t (fst e) from a (snd e)) (x_tok (lo_x s)) (entries (ac_spender (lo_ac s))) = Ok t1 ->
  foldM (fun t e => transfer (as_contract (ctx w sg) a) t (fst e) a to (snd e)) t1 (entries (ac_pool (lo_ac s))) = Ok t2 ->
  succeeds w (OPool sg a (PSubmit from from to [q])).
Proof.
  intros Hr Hsg Hok Hto Hi Hty Hamt Hdo Hchk Hcnt Hst Ht1 Ht2.
  assert (w_pools w !! a = Some (pool w a)) as Hp. { unfold pool in *. destruct (w_pools w !! a); [done|]. discriminate Hi. }
  pose proof (pools_neg _ Hr _ _ Hp) as Hneg.
  assert (3 < from) as Hf3. { eapply forallb_forall in Hok; [|by apply elem_of_list_In]. unfold ok_signer in Hok. by apply Z.ltb_lt. }
  unfold succeeds, exec. rewrite Hok, Hp. assert (ty_pop (PSubmit from from to [q]) = true) as ->.
  { simpl. rewrite Hty, andb_true_r. apply in_i128_iff. unfold i128_min. lia. }
  cbn [andb unwrap bind]. unfold p_exec. cbn [px_p px_x]. rewrite Hi. cbn [negb].
  unfold p_submit. rewrite (auth_of _ _ _ Hsg). cbn [bind]. rewrite Z.eqb_refl. cbn [bind px_p px_x].
  rewrite (proj2 (Z.eqb_neq from a)), (proj2 (Z.eqb_neq to a)) by lia. cbn [orb negb].
  unfold build_actions. cbn [foldM]. fold (loop0 w a from). rewrite Hdo. cbn [bind].
  unfold require_under_max. assert ((eff_count (get_pos (pool w a) from) <? eff_count (lo_pos s)) && (pc_max_positions (ch_cfg (lo_ch s)) <? eff_count (lo_pos s)) = false) as ->.
  { destruct Hcnt as [Hcnt|Hcnt]; rewrite (proj2 (Z.ltb_ge _ _) Hcnt); [done|apply andb_false_r]. }
  cbn [bind]. rewrite Hchk. cbn [bind]. unfold transfer_all. rewrite Ht1. cbn [bind].
  unfold store_cached. destruct (store_total ch (ch_store ch) Hst (lo_p s)) as [p' ->]. cbn [bind].
  rewrite Ht2. cbn [bind]. eauto.
Qed.
(** the cache after loading one reserve *)
Lemma load_first' w a r res : load_res (w_now w) (ps_config (pool w a)) (pool w a) r = Ok res ->
  load_reserve (w_now w) (pool w a) (pool_load (pool w a)) r true = Ok (res, pool_load (pool w a) <| ch_store := [r] |>).
Proof. intros Hl. unfold load_reserve, pool_load. cbn [ch_store existsb negb andb app ch_res ch_cfg set]. simpl. rewrite lookup_empty, Hl. done. Qed.
Lemma updated_same now p u id q : updated now p p u id q -> ps_list q = ps_list p /\ ps_rcfg q = ps_rcfg p /\ ps_rdata q = ps_rdata p.
Proof. intros [[_ ->]|(cfg & e & ue & _ & -> & _)]; done. Qed.

(** ** C60 *)
(** in an active or admin-active pool (status 0, 1) anybody can borrow any amount that the pool holds,
    as long as the account stays healthy, the reserve below its maximum utilization and the account
    within the maximum number of positions *)
Theorem C60_borrow_possible : forall w sg a from to r n cfg d dec,
  reachable w -> from ∈ sg -> forallb ok_signer sg = true -> to <> a ->
  ps_rcfg (pool w a) !! r = Some cfg -> reserve w a r = Some d ->
  let rate := d_rate_now w a r in
  let debt := owed (account w a from) r in
  let pos := positions w a from in
  let pos' := pos <| po_liab := <[rc_index cfg := debt + up n rate]> (po_liab pos) |> in
  status w a <= 1 -> 0 < n -> n <= held w r a ->
  0 < debt \/ position_count pos + 1 <= pc_max_positions (ps_config (pool w a)) ->
  util_at_most (data_at (w_now w) (pool w a) r <| rd_d_supply := rd_d_supply d + up n rate |>) (rc_max_util cfg) ->
  healthy w a dec pos' ->
  (* all assets can be valued, interest can be computed and 128-bit integers suffice *)
  all_valued w a dec pos' -> accruable w a r -> emis_fits (w_now w) (pool w a) from (rc_index cfg * 2) ->
  n * 1000000000 <= i128_max -> (rd_d_supply d + up n rate) * rate * 10000000 <= i128_max -> rd_b_supply d * b_rate_now w a r <= i128_max ->
  held w r to + n <= i128_max ->
  succeeds w (OPool sg a (PSubmit from from to [mkReq 4 r n])).
Proof.
  intros w sg a from to r n cfg d dec Hr Hsg Hok Hto Hc Hd rate debt pos pos' Hstat Hn Hheld Hcnt Hutil Hhf Hval Hac Hem F1 F2 F3 F4.
  pose proof (init_of_data w a r d Hr Hd) as G. pose proof (gd_init _ G) as Hi.
  destruct (loaded w a r cfg d Hr Hac Hc Hd) as (res & Hl & Hra & Hri & Hrs & Hrd & Hbs & Hds & W).
  pose proof (load_first' w a r res Hl) as Hlr.
  assert (rd_d_rate (r_data res) = rate) as Hrate by (rewrite Hrd; done).
  assert (rd_b_rate (r_data res) = b_rate_now w a r) as Hbrate by (rewrite Hrd; done).
  assert (SCALAR_9 <= rate) as Hr9 by (rewrite <- Hrate; apply W). vals.
  pose proof (reachable_tok_nonneg w Hr r to) as Hnn.
  destruct (tok_of_tid (pool w a) KLiab r cfg d from G Hc Hd) as (_ & Ha & Hb & Hsu & Hun). cbn [tid sup_k ebal] in *.
  set (i := rc_index cfg) in *. change (get_pos (pool w a) from) with pos in Hb.
  pose proof (tok_list (pool w a) (i * 2) [from] G ltac:(rewrite Ha; eauto) ltac:(apply NoDup_singleton)) as Htl.
  rewrite sumz_cons, sumz_nil, Hb, Hsu in Htl.
  assert (debt = get_liab pos i) as Hm.
  { unfold debt, account, liab_of, index_of, amount_at. simpl. rewrite Hc. done. }
  pose proof (pos_ok_getz (pool w a) from KLiab i (gd_pos _ G)) as P1. cbn [get_k] in P1. change (getz (po_liab (get_pos (pool w a) from)) i) with (get_liab pos i) in P1.
  assert (0 < up n rate) as Hup. { unfold up. pose proof (cdiv_spec (n * 1000000000) rate ltac:(lia)). nia. }
  set (m := up n rate) in *.
  assert (rd_d_supply d + m <= i128_max) as F2'. { assert (0 <= rd_d_supply d + m) by lia. unfold i128_max in *. nia. }
  assert (d_up (r_data res) n = Ok m) as Hdd. { unfold d_up. rewrite Hrate. apply fdiv_ceil_fits; vals; lia. }
  destruct (emissions_total (w_now w) (pool w a) (pool w a) from (i * 2) (tok_bal (pool w a) from (i * 2)) G (reachable_emis w a Hr) Hem) as (n1 & q1 & E1 & U1); [done|done|].
  rewrite Hb, Hsu, Hun in E1. destruct (updated_same _ _ _ _ _ U1) as (V1 & V2 & V3).
  unfold held in *.
  destruct (move_total (x_tok (w_ext w)) r a to n ltac:(congruence)) as (t2 & Et2 & _); [lia|done|done|].
  set (res2 := set_d_supply res (rd_d_supply d + m)).
  set (ch2 := cache_reserve (pool_load (pool w a) <| ch_store := [r] |>) res2).
  assert (require_util res2 = Ok tt) as Hu.
  { unfold require_util, utilization, total_liab, total_supply, asset_from_d, asset_from_b, res2, set_d_supply. simpl. rewrite Hrate, Hbrate, Hbs.
    destruct Hutil as [U2 U3]. unfold total_supplied, total_debt in U2, U3. simpl in U2, U3. rewrite <- Hrd, ?Hrate, ?Hbrate, ?Hbs in U2, U3.
    assert (0 <= (rd_d_supply d + m) * rate) by (apply Z.mul_nonneg_nonneg; lia).
    vals. rewrite fmul_ceil_fits' by (unfold i128_max in *; lia). cbn [bind].
    rewrite fmul_floor_fits; [|split; [|exact F3]|lia]. 2: { destruct (Z.le_gt_cases 0 (rd_b_supply d * b_rate_now w a r)) as [|Hneg]; [done|]. pose proof (Z.div_le_upper_bound (rd_b_supply d * b_rate_now w a r) 1000000000 0 ltac:(lia) ltac:(lia)). lia. }
    cbn [bind].
    assert (0 <= cdiv ((rd_d_supply d + m) * rate) 1000000000 <= (rd_d_supply d + m) * rate) as Hcd. { split; [apply cdiv_nonneg; lia|]. apply cdiv_le_iff; lia. }
    rewrite fdiv_ceil_fits by (unfold i128_max in *; lia). cbn [bind].
    rewrite (proj2 (Z.ltb_ge _ _)); [done|]. pose proof (load_res_fields _ _ _ _ _ Hl) as (cfg' & ? & Hc' & _ & _ & _ & _ & _ & Hmu & _). rewrite Hc in Hc'. injection Hc' as <-. rewrite Hmu. rewrite Hrate in U3. exact U3. }
  assert (do_request (ctx w sg) a from (loop0 w a from) (mkReq 4 r n) = Ok (mkLoop q1 (w_ext w) ch2 pos' (mkActs ∅ {[r := n]}) true)) as Hdo.
  { unfold do_request. cbn [rq_amt rq_type]. unfold p_nonneg. rewrite (proj2 (Z.ltb_ge n 0)) by lia. cbn [bind].
    unfold require_action. simpl (_ =? _). cbn [orb lo_ch loop0]. change (pc_status (ch_cfg (pool_load (pool w a)))) with (status w a).
    rewrite (proj2 (Z.ltb_ge 1 (status w a))) by lia. rewrite !andb_false_r. cbn [orb bind c_now ctx andb].
    unfold do_borrow. cbn [lo_p lo_ch rq_addr rq_amt loop0 lo_pos lo_ac lo_x lo_check]. rewrite Hlr. cbn [bind]. rewrite Hdd. cbn [bind].
    unfold add_liabilities. rewrite (proj2 (Z.eqb_neq m 0)) by lia. cbn [negb]. rewrite Hri. fold i. change (get_pos (pool w a) from) with pos.
    unfold upd_d_emis. rewrite Hri. fold i. rewrite Hds, Hrs, E1. cbn [bind].
    rewrite i128_ok_nonneg by (unfold i128_max in *; lia). cbn [bind]. rewrite i128_ok_nonneg by (unfold i128_max in *; lia). cbn [bind].
    fold res2. rewrite Hu. cbn [bind]. unfold add_pool, no_actions. cbn [ac_pool]. rewrite lookup_empty. cbn [default].
    rewrite Z.add_0_r, i128_ok_nonneg by (unfold i128_max in *; lia). cbn [bind]. unfold res2 at 1, set_d_supply at 1. cbn [r_asset set]. simpl. rewrite Hra. unfold pos'. rewrite Hm. done. }
  assert (forall k j, 0 <= getz (get_k k pos') j) as Hpos.
  { intros k j. pose proof (pos_ok_getz (pool w a) from k j (gd_pos _ G)) as Hk. change (get_pos (pool w a) from) with pos in Hk.
    destruct k; unfold pos'; simpl; try exact Hk. simpl in Hk. unfold getz in *. destruct (decide (j = i)) as [->|]; [rewrite lookup_insert; simpl; lia|by rewrite lookup_insert_ne]. }
  destruct (check_total w a sg q1 ch2 (mkActs ∅ {[r := n]}) pos' r res res2 dec Hr Hi Hval Hpos Hhf V1 V2 V3 Hl) as (ch3 & Hch & Hst); try done.
  { unfold ch2, cache_reserve, res2, set_d_supply. simpl. by rewrite Hra. }
  eapply (submit_checked w sg a from to _ _ ch3 (x_tok (w_ext w)) t2 Hr Hsg Hok Hto Hi); [done| |exact Hdo|exact Hch| |exact Hst| | ].
  - simpl. unfold i128_max in *. lia.
  - cbn [lo_pos lo_ch]. change (get_pos (pool w a) from) with pos. unfold eff_count, pos'. simpl. destruct Hcnt as [Hdp|Hcnt].
    + left. rewrite map_size_insert_Some; [lia|]. rewrite Hm in Hdp. unfold get_liab, getz in Hdp. destruct (po_liab pos !! i); [eauto|simpl in Hdp; lia].
    + right. unfold position_count in Hcnt. destruct (po_liab pos !! i) eqn:El; [rewrite map_size_insert_Some by eauto|rewrite map_size_insert_None by done]; lia.
  - cbn [lo_x lo_ac ac_spender]. rewrite entries_empty. done.
  - cbn [lo_ac ac_pool]. rewrite entries_one. cbn [foldM fst snd]. unfold transfer, need_auth, as_contract. cbn [c_auth ctx].
    rewrite Z.eqb_refl, orb_true_r. cbn [bind]. rewrite Et2. done.
Qed.

(** a borrower can take out any part of its collateral that the pool holds, whatever the pool's
    status, as long as the account stays healthy without it *)
Theorem C60_collateral_withdrawal_possible : forall w sg a from to r n cfg d dec,
  reachable w -> from ∈ sg -> forallb ok_signer sg = true -> to <> a ->
  ps_rcfg (pool w a) !! r = Some cfg -> reserve w a r = Some d ->
  let rate := b_rate_now w a r in
  let mine := collateral (account w a from) r in
  let burnt := Z.min mine (up n rate) in
  let pay := if mine <? up n rate then mine * rate / 1000000000 else n in
  let pos := positions w a from in
  let pos' := pos <| po_coll := if burnt =? mine then delete (rc_index cfg) (po_coll pos) else <[rc_index cfg := mine - burnt]> (po_coll pos) |> in
  0 < n -> 0 < mine -> pay <= held w r a ->
  healthy w a dec pos' ->
  (* all assets can be valued, interest can be computed and 128-bit integers suffice *)
  all_valued w a dec pos' -> accruable w a r -> emis_fits (w_now w) (pool w a) from (rc_index cfg * 2 + 1) ->
  n * 1000000000 <= i128_max -> mine * rate <= i128_max -> rd_b_supply d <= i128_max -> held w r to + pay <= i128_max ->
  succeeds w (OPool sg a (PSubmit from from to [mkReq 3 r n])).
Proof.
  intros w sg a from to r n cfg d dec Hr Hsg Hok Hto Hc Hd rate mine tb pay pos pos' Hn Hmine Hheld Hhf Hval Hac Hem F1 F2 F3 F4.
  pose proof (init_of_data w a r d Hr Hd) as G. pose proof (gd_init _ G) as Hi.
  destruct (loaded w a r cfg d Hr Hac Hc Hd) as (res & Hl & Hra & Hri & Hrs & Hrd & Hbs & Hds & W).
  pose proof (load_first' w a r res Hl) as Hlr.
  assert (rd_b_rate (r_data res) = rate) as Hrate by (rewrite Hrd; done).
  assert (SCALAR_9 <= rate) as Hr9 by (rewrite <- Hrate; apply W). vals.
  pose proof (reachable_tok_nonneg w Hr r to) as Hnn.
  destruct (tok_of_tid (pool w a) KSup r cfg d from G Hc Hd) as (_ & Ha & Hb & Hsu & Hun). cbn [tid sup_k ebal] in *.
  set (i := rc_index cfg) in *. change (get_pos (pool w a) from) with pos in Hb.
  pose proof (pos_ok_getz (pool w a) from KSup i (gd_pos _ G)) as P1. pose proof (pos_ok_getz (pool w a) from KColl i (gd_pos _ G)) as P2.
  cbn [get_k] in P1, P2. change (getz (po_sup (get_pos (pool w a) from)) i) with (get_sup pos i) in P1. change (getz (po_coll (get_pos (pool w a) from)) i) with (get_coll pos i) in P2.
  pose proof (tok_list (pool w a) (i * 2 + 1) [from] G ltac:(rewrite Ha; eauto) ltac:(apply NoDup_singleton)) as Htl.
  rewrite sumz_cons, sumz_nil, Hb, Hsu in Htl.
  assert (mine = get_coll pos i) as Hm.
  { unfold mine, account, coll_of, index_of, amount_at. simpl. rewrite Hc. done. }
  assert (0 < up n rate) as Hup. { unfold up. pose proof (cdiv_spec (n * 1000000000) rate ltac:(lia)). nia. }
  assert (0 < tb <= mine) as Htb by (unfold tb; lia).
  assert (b_up (r_data res) n = Ok (up n rate)) as Hbup. { unfold b_up. rewrite Hrate. apply fdiv_ceil_fits; vals; lia. }
  assert ((if mine <? up n rate then let? o := asset_from_b (r_data res) mine in Ok (mine, o) else Ok (up n rate, n)) = Ok (tb, pay)) as Hout.
  { unfold tb, pay. destruct (Z.ltb_spec mine (up n rate)).
    - rewrite Z.min_l by lia. unfold asset_from_b. rewrite Hrate. vals. rewrite fmul_floor_fits; [done| |lia]. unfold i128_max in *. split; [apply Z.mul_nonneg_nonneg; lia|exact F2].
    - by rewrite Z.min_r by lia. }
  assert (0 <= pay) as Hpay. { unfold pay. destruct (mine <? up n rate); [apply Z.div_pos; nia|lia]. }
  destruct (emissions_total (w_now w) (pool w a) (pool w a) from (i * 2 + 1) (tok_bal (pool w a) from (i * 2 + 1)) G (reachable_emis w a Hr) Hem) as (n1 & q1 & E1 & U1); [done|done|].
  rewrite Hb, Hsu, Hun in E1. destruct (updated_same _ _ _ _ _ U1) as (V1 & V2 & V3).
  unfold held in *.
  destruct (move_total (x_tok (w_ext w)) r a to pay ltac:(congruence)) as (t2 & Et2 & _); [lia|done|done|].
  assert (get_total pos i = Ok (get_coll pos i + get_sup pos i)) as Htot. { unfold get_total. apply i128_ok_nonneg. unfold i128_max in *. lia. }
  set (res2 := set_b_supply res (rd_b_supply d - tb)).
  set (ch2 := cache_reserve (pool_load (pool w a) <| ch_store := [r] |>) res2).
  assert (put (po_coll pos) i (get_coll pos i - tb) = if tb =? mine then delete i (po_coll pos) else <[i := mine - tb]> (po_coll pos)) as Hput.
  { unfold put. rewrite <- Hm. destruct (Z.eqb_spec tb mine), (Z.eqb_spec (mine - tb) 0); try lia; done. }
  assert (do_request (ctx w sg) a from (loop0 w a from) (mkReq 3 r n) = Ok (mkLoop q1 (w_ext w) ch2 pos' (mkActs ∅ {[r := pay]}) true)) as Hdo.
  { unfold do_request. cbn [rq_amt rq_type]. unfold p_nonneg. rewrite (proj2 (Z.ltb_ge n 0)) by lia. cbn [bind].
    unfold require_action. simpl (_ =? _). cbn [orb]. rewrite !andb_false_r. cbn [orb bind c_now ctx].
    unfold do_withdraw_coll. cbn [lo_p lo_ch rq_addr rq_amt loop0 lo_pos lo_ac lo_x lo_check]. rewrite Hlr. cbn [bind]. change (get_pos (pool w a) from) with pos. rewrite Hri. fold i. rewrite Hbup. cbn [bind].
    rewrite <- Hm, Hout. cbn [bind].
    unfold remove_collateral. rewrite (proj2 (Z.eqb_neq tb 0)) by lia. cbn [negb]. rewrite Hri. fold i. rewrite Htot. cbn [bind].
    unfold upd_b_emis. rewrite Hri. fold i. rewrite Hbs, Hrs, E1. cbn [bind].
    rewrite i128_ok_nonneg by (unfold i128_max in *; lia). cbn [bind]. unfold p_nonneg. rewrite (proj2 (Z.ltb_ge _ 0)) by lia. cbn [bind].
    rewrite i128_ok_nonneg by (unfold i128_max in *; lia). cbn [bind]. unfold add_pool, no_actions. cbn [ac_pool]. rewrite lookup_empty. cbn [default].
    rewrite i128_ok_nonneg by (unfold i128_max in *; lia). cbn [bind]. fold res2. unfold res2 at 2, set_b_supply at 1. cbn [r_asset set]. simpl. rewrite Hra, Z.add_0_r, Hput. done. }
  assert (forall k j, 0 <= getz (get_k k pos') j) as Hpos.
  { intros k j. pose proof (pos_ok_getz (pool w a) from k j (gd_pos _ G)) as Hk. change (get_pos (pool w a) from) with pos in Hk.
    destruct k; unfold pos'; simpl; try exact Hk. simpl in Hk. rewrite <- Hput, getz_put. destruct (decide _); [lia|exact Hk]. }
  destruct (check_total w a sg q1 ch2 (mkActs ∅ {[r := pay]}) pos' r res res2 dec Hr Hi Hval Hpos Hhf V1 V2 V3 Hl) as (ch3 & Hch & Hst); try done.
  { unfold ch2, cache_reserve, res2, set_b_supply. simpl. by rewrite Hra. }
  eapply (submit_checked w sg a from to _ _ ch3 (x_tok (w_ext w)) t2 Hr Hsg Hok Hto Hi); [done| |exact Hdo|exact Hch| |exact Hst| | ].
  - simpl. unfold i128_max in *. lia.
  - cbn [lo_pos lo_ch]. change (get_pos (pool w a) from) with pos. left. unfold eff_count, pos'. simpl. rewrite <- Hput.
    destruct (put_size (po_coll pos) i (get_coll pos i - tb)) as [|Hnone]; [lia|]. unfold get_coll, getz in Hm. rewrite Hnone in Hm. simpl in Hm. lia.
  - cbn [lo_x lo_ac ac_spender]. rewrite entries_empty. done.
  - cbn [lo_ac ac_pool]. rewrite entries_one. cbn [foldM fst snd]. unfold transfer, need_auth, as_contract. cbn [c_auth ctx].
    rewrite Z.eqb_refl, orb_true_r. cbn [bind]. rewrite Et2. done.
Qed.

(** unless the pool is frozen or in setup, anybody can supply collateral worth at least one bToken, within
    the maximum number of positions *)
Theorem C60_collateral_supply_possible : forall w sg a from to r n cfg d,
  reachable w -> from ∈ sg -> forallb ok_signer sg = true -> to <> a ->
  ps_rcfg (pool w a) !! r = Some cfg -> reserve w a r = Some d ->
  let rate := b_rate_now w a r in
  status w a <= 3 ->
  0 < collateral (account w a from) r \/ position_count (positions w a from) + 1 <= pc_max_positions (ps_config (pool w a)) ->
  rate <= n * 1000000000 -> n <= held w r from ->
  accruable w a r -> emis_fits (w_now w) (pool w a) from (rc_index cfg * 2 + 1) ->
  n * 1000000000 <= i128_max -> rd_b_supply d + down n rate <= i128_max -> held w r a + n <= i128_max ->
  succeeds w (OPool sg a (PSubmit from from to [mkReq 2 r n])).
Proof.
  intros w sg a from to r n cfg d Hr Hsg Hok Hto Hc Hd rate Hstat Hcnt Hone Hfunds Hac Hem F1 F2 F3.
  pose proof (init_of_data w a r d Hr Hd) as G. pose proof (gd_init _ G) as Hi.
  assert (w_pools w !! a = Some (pool w a)) as Hp. { unfold pool in *. destruct (w_pools w !! a); [done|]. discriminate Hi. }
  pose proof (pools_neg _ Hr _ _ Hp) as Hneg.
  assert (3 < from) as Hf3. { pose proof Hok as Hok'. eapply forallb_forall in Hok'; [|by apply elem_of_list_In]. unfold ok_signer in Hok'. by apply Z.ltb_lt. }
  destruct (loaded w a r cfg d Hr Hac Hc Hd) as (res & Hl & Hra & Hri & Hrs & Hrd & Hbs & Hds & W).
  destruct (load_first w a r res Hl Hra) as (ch & Hlr & Hst).
  assert (rd_b_rate (r_data res) = rate) as Hrate by (rewrite Hrd; done).
  assert (SCALAR_9 <= rate) as Hr9 by (rewrite <- Hrate; apply W). vals.
  pose proof (reachable_tok_nonneg w Hr r) as Hnn.
  destruct (tok_of_tid (pool w a) KSup r cfg d from G Hc Hd) as (_ & Ha & Hb & Hsu & Hun). cbn [tid sup_k ebal] in *.
  set (i := rc_index cfg) in *. set (pos := get_pos (pool w a) from) in *.
  pose proof (pos_ok_getz (pool w a) from KSup i (gd_pos _ G)) as P1. pose proof (pos_ok_getz (pool w a) from KColl i (gd_pos _ G)) as P2.
  cbn [get_k] in P1, P2. fold pos in P1, P2.
  change (getz (po_sup pos) i) with (get_sup pos i) in P1. change (getz (po_coll pos) i) with (get_coll pos i) in P2.
  pose proof (tok_list (pool w a) (i * 2 + 1) [from] G ltac:(rewrite Ha; eauto) ltac:(apply NoDup_singleton)) as Htl.
  rewrite sumz_cons, sumz_nil, Hb, Hsu in Htl.
  assert (1 <= down n rate) as Hdn. { unfold down. apply Z.div_le_lower_bound; lia. }
  assert (b_down (r_data res) n = Ok (down n rate)) as Hdd. { unfold b_down. rewrite Hrate. apply fdiv_floor_fits; vals; lia. }
  destruct (emissions_total (w_now w) (pool w a) (pool w a) from (i * 2 + 1) (tok_bal (pool w a) from (i * 2 + 1)) G (reachable_emis w a Hr) Hem) as (n1 & q1 & E1 & U1); [done|done|].
  rewrite Hb, Hsu, Hun in E1.
  assert (get_total pos i = Ok (get_coll pos i + get_sup pos i)) as Htot. { unfold get_total. apply i128_ok_nonneg. unfold i128_max in *. lia. }
  unfold held in *.
  destruct (move_total (x_tok (w_ext w)) r from a n ltac:(lia)) as (t1 & Et1 & B1 & B2 & B3); [unfold i128_max in *; lia|done|done|].
  set (pos' := pos <| po_coll := <[i := get_coll pos i + down n rate]> (po_coll pos) |>).
  set (ch2 := cache_reserve ch (set_b_supply res (rd_b_supply d + down n rate))).
  assert (ch_cfg ch2 = ps_config (pool w a)) as Hcc.
  { rewrite (load_first' w a r res Hl) in Hlr. injection Hlr as <-. done. }
  assert (do_request (ctx w sg) a from (loop0 w a from) (mkReq 2 r n) = Ok (mkLoop q1 (w_ext w) ch2 pos' (mkActs {[r := n]} ∅) false)) as Hdo.
  { unfold do_request. cbn [rq_amt rq_type]. unfold p_nonneg. rewrite (proj2 (Z.ltb_ge n 0)) by lia. cbn [bind].
    unfold require_action. simpl (_ =? _). cbn [orb]. cbn [lo_ch loop0]. change (pc_status (ch_cfg (pool_load (pool w a)))) with (status w a).
    rewrite (proj2 (Z.ltb_ge 3 (status w a))) by lia. rewrite !andb_false_r. cbn [orb bind c_now ctx andb].
    unfold do_supply_coll. cbn [lo_p lo_ch rq_addr rq_amt loop0 lo_pos lo_ac lo_x lo_check]. rewrite Hlr. cbn [bind]. fold pos. rewrite Hdd. cbn [bind].
    unfold add_collateral. rewrite (proj2 (Z.eqb_neq (down n rate) 0)) by lia. cbn [negb]. rewrite Hri. fold i. rewrite Htot. cbn [bind].
    unfold upd_b_emis. rewrite Hri. fold i. rewrite Hbs, Hrs, E1. cbn [bind].
    rewrite i128_ok_nonneg by (unfold i128_max in *; lia). cbn [bind]. rewrite i128_ok_nonneg by (unfold i128_max in *; lia). cbn [bind].
    unfold add_spender, no_actions. cbn [ac_spender]. rewrite lookup_empty. cbn [default].
    rewrite Z.add_0_r, i128_ok_nonneg by (unfold i128_max in *; lia). cbn [bind]. unfold set_b_supply at 1. cbn [r_asset set]. simpl. rewrite Hra. done. }
  eapply (submit_checked w sg a from to _ _ ch2 t1 t1 Hr Hsg Hok Hto Hi); [done| |exact Hdo|done| |by apply Hst| | ].
  - simpl. unfold i128_max in *. lia.
  - cbn [lo_pos lo_ch]. fold pos. rewrite Hcc. unfold eff_count, pos'. simpl.
    assert (collateral (account w a from) r = get_coll pos i) as Hcm. { unfold account, coll_of, index_of, amount_at. simpl. rewrite Hc. done. }
    destruct Hcnt as [Hdp|Hcnt].
    + left. rewrite map_size_insert_Some; [lia|]. rewrite Hcm in Hdp. unfold get_coll, getz in Hdp. destruct (po_coll pos !! i); [eauto|simpl in Hdp; lia].
    + right. unfold position_count, positions in Hcnt. fold pos in Hcnt. destruct (po_coll pos !! i) eqn:El; [rewrite map_size_insert_Some by eauto|rewrite map_size_insert_None by done]; lia.
  - simpl. rewrite entries_one. cbn [foldM fst snd]. unfold transfer. rewrite (auth_of _ _ _ Hsg). cbn [bind]. rewrite Et1. done.
  - simpl. by rewrite entries_empty.
Qed.
