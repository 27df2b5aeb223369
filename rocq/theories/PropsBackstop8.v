(** * Distribution of emissions succeeds exactly when documented (C63) *)
From Verif Require Import Base Types Token Emitter Factory Backstop PoolReserve PoolUser PoolHealth
  PoolAuction PoolSubmit PoolEmis PoolAdmin World Facts XMove Spec FrameFacts PoolFrame PoolCfg BackMoves BackInv BackEmis
  PropsEmitter PropsAdmin PropsBackstop PropsBackstop2 PropsBackstop3 PropsBackstop4 PropsBackstop5 PoolInv PoolReach PoolTx PropsAdmin2 PropsBackstop6 PropsBackstop7.

(** ** Specification *)
Definition zone (w : World) : list Addr := bs_rz (x_bs (w_ext w)).
(** the tokens of [p] that are not queued for withdrawal, and those of the reward zone *)
Definition unqueued_tokens (w : World) (p : Addr) : Z := pb_tokens (pool_bal w p) - tokens_for w p (pb_q4w (pool_bal w p)).
Definition zone_tokens (w : World) : Z := sumz (unqueued_tokens w) (zone w).
(** the BLND emitted to the backstop and not yet distributed *)
Definition undistributed (w : World) : Z := (default 0 (em_last (emitter w) !! bs_addr) - bs_last (x_bs (w_ext w))) * 10000000.
(** BLND left of the current emissions of [p] *)
Definition left_over (w : World) (cfg : EmisConfig) : Z := ec_eps cfg * Z.max 0 (ec_exp cfg - w_now w).
(** 128-bit amounts and 64-bit rates suffice *)
Definition gulp_fits (w : World) : Prop :=
  w_now w + 604800 <= u64_max /\ undistributed w <= 604800 * u64_max /\ zone_tokens w * 10000000 <= i128_max /\
  forall p, p ∈ zone w ->
    pb_q4w (pool_bal w p) * pb_tokens (pool_bal w p) <= i128_max /\ get_pemis (w_ext w) p + undistributed w <= i128_max /\
    forall cfg d, bs_ecfg (x_bs (w_ext w)) !! p = Some cfg -> bs_edata (x_bs (w_ext w)) !! p = Some d ->
      (Z.min (ec_exp cfg) (w_now w) - ed_last d) * ec_eps cfg * 10000000 <= i128_max /\ index_now w p cfg d <= i128_max /\
      left_over w cfg <= u64_max /\ undistributed w + left_over w cfg <= 604800 * u64_max.

(** ** Clocks *)
Definition clocks (w : World) : Prop :=
  (forall b t, em_last (emitter w) !! b = Some t -> 0 <= t <= w_now w) /\ 0 <= bs_last (x_bs (w_ext w)) <= w_now w /\
  (bs_init (x_bs (w_ext w)) = true -> exists t, em_last (emitter w) !! bs_addr = Some t).
Lemma reachable_clocks w : reachable w -> clocks w.
Proof.
  revert w. apply reach_inv'.
  - intros w (now & seq & t & o & lp & -> & Hn & _). unfold clocks, emitter. simpl. split; [by intros *; rewrite lookup_empty|]. split; [lia|done].
  - intros w o out w' Hr (I1 & I2 & I3) H. pose proof (exec_em _ _ _ _ H) as Hem. pose proof (exec_dmoves _ _ _ _ H) as Hd. pose proof (exec_now _ _ _ _ H) as Hn.
    pose proof (reachable_time _ Hr) as Ht.
    assert (emitter w' = emitter w -> bs_last (x_bs (w_ext w')) = bs_last (x_bs (w_ext w)) -> bs_init (x_bs (w_ext w')) = bs_init (x_bs (w_ext w)) -> clocks w') as Hsame.
    { unfold clocks. intros -> -> ->. split; [intros b t Hb; specialize (I1 b t Hb); lia|]. split; [lia|done]. }
    assert (forall m, em_last (emitter w') = <[m := w_now w]> (em_last (emitter w)) -> bs_last (x_bs (w_ext w')) = bs_last (x_bs (w_ext w)) -> bs_init (x_bs (w_ext w')) = bs_init (x_bs (w_ext w)) -> clocks w') as Hset.
    { unfold clocks. intros m -> -> ->. split.
      - intros b t. destruct (decide (m = b)) as [->|]; [rewrite lookup_insert; intros [= <-]; lia|rewrite lookup_insert_ne by done; intros Hb; specialize (I1 b t Hb); lia].
      - split; [lia|]. intros Hi. destruct (decide (m = bs_addr)) as [->|]; [rewrite lookup_insert; eauto|rewrite lookup_insert_ne by done; auto]. }
    destruct o as [sg o|sg a o|sg ad sa orc ra mp|b|dt ds|orc|n|b t u|b r|].
    2-10: apply dmoves_rz in Hd as (D0 & D1 & D2); by apply Hsame.
    destruct o; try (apply dmoves_rz in Hd as (D0 & D1 & D2); by apply Hsame).
    + apply dmoves_rz in Hd as (D0 & D1 & D2). clear Hem Hsame. unfold exec in H. mon H. simpl in E. unfold ret_unit in E. mon E. unfold em_initialize in E0. mon E0. by apply (Hset backstop).
    + apply dmoves_rz in Hd as (D0 & D1 & D2). clear Hem Hsame. unfold exec in H. mon H. simpl in E. unfold ret_z in E. mon E. unfold em_distribute in E0. mon E0.
      apply em_execute_distribute_spec in E0 as (? & _ & _ & _ & He & _). apply (Hset (em_backstop (emitter w))); try done. unfold emitter. simpl. by rewrite He.
    + apply dmoves_rz in Hd as (D0 & D1 & D2). clear Hem Hset. unfold exec in H. mon H. simpl in E. unfold ret_unit in E. mon E. unfold em_queue_swap in E0. mon E0.
      split; [intros b t Hb; exact (I1 b t Hb)|]. split; done.
    + apply dmoves_rz in Hd as (D0 & D1 & D2). clear Hem Hset. unfold exec in H. mon H. simpl in E. unfold ret_unit in E. mon E. unfold em_cancel_swap in E0. mon E0.
      split; [intros b t Hb; exact (I1 b t Hb)|]. split; done.
    + apply dmoves_rz in Hd as (D0 & D1 & D2). unfold exec in H. mon H. simpl in E. unfold ret_unit in E. mon E. unfold em_swap_backstop in E0. mon E0.
      match goal with E : em_execute_distribute _ _ _ = Ok _ |- _ => apply em_execute_distribute_spec in E as (? & _ & _ & _ & He & _) end.
      unfold clocks, emitter in *. simpl in *. rewrite He, D1, D2. simpl. clear Hset Hsame Hem. split.
      * intros b t. destruct (decide (sw_backstop sw = b)) as [->|]; [rewrite lookup_insert; intros [= <-]; lia|rewrite lookup_insert_ne by done].
        destruct (decide (em_backstop (x_em (w_ext w)) = b)) as [->|]; [rewrite lookup_insert; intros [= <-]; lia|rewrite lookup_insert_ne by done]. apply I1.
      * split; [done|]. intros Hi. destruct (decide (sw_backstop sw = bs_addr)) as [->|]; [rewrite lookup_insert; eauto|rewrite lookup_insert_ne by done].
        destruct (decide (em_backstop (x_em (w_ext w)) = bs_addr)) as [->|]; [rewrite lookup_insert; eauto|rewrite lookup_insert_ne by done]. auto.
    + apply dmoves_rz in Hd as (D0 & D1 & D2). clear Hem Hset. unfold exec in H. mon H. simpl in E. unfold ret_unit in E. mon E. unfold em_drop in E0. mon E0. mints_as Hx.
      unfold clocks, emitter in *. simpl in *. rewrite Hx, D1, D2. done.
    + clear Hd. unfold exec in H. mon H. simpl in E. unfold ret_unit in E. mon E. unfold b_initialize in E0. mon E0.
      unfold em_get_last, unwrap in E. destruct (em_last (x_em (w_ext w)) !! bs_addr) as [L|] eqn:EL; [|done]. apply Ok_inj in E as ->.
      unfold clocks, PropsEmitter.emitter in *. simpl. split; [done|]. split; [by apply (I1 bs_addr)|]. eauto.
    + apply dmoves_rz in Hd as (D0 & D1 & D2). clear Hem Hset. unfold exec in H. mon H. simpl in E. unfold ret_unit in E. mon E. unfold b_drop, em_drop in E0. mon E0. mints_as Hx.
      unfold clocks, emitter in *. simpl in *. rewrite Hx, D1, D2. done.
    + clear Hd. unfold exec in H. mon H. simpl in E. unfold ret_unit in E. mon E. apply add_reward_fields in E0 as (F1 & F2 & _). by apply Hsame.
    + clear Hd. unfold exec in H. mon H. simpl in E. unfold ret_z in E. mon E.
      destruct (b_gulp_spec _ _ _ _ _ E0 (reachable_binv _ Hr)) as (el & tot & evs & A1 & _ & _ & _ & _ & _ & _ & _ & _ & _ & _ & A11 & A12 & A13 & _).
      unfold clocks, PropsEmitter.emitter in *. simpl in *. rewrite Hem, A11, A12. split; [done|]. split; [by apply (I1 bs_addr)|done].
Qed.

(** ** The distribution loop *)
Lemma update_data_total c x p pb cfg d : bs_edata (x_bs x) !! p = Some d ->
  0 <= ed_last d <= c_now c -> 0 <= ed_index d -> 0 <= ec_eps cfg -> 0 <= pb_q4w pb <= pb_shares pb -> pb_shares pb <= i128_max -> c_now c <= u64_max ->
  (Z.min (ec_exp cfg) (c_now c) - ed_last d) * ec_eps cfg * 10000000 <= i128_max ->
  (ed_last d < ec_exp cfg /\ ed_last d < c_now c /\ ec_eps cfg <> 0 /\ pb_shares pb <> 0 ->
     0 < pb_shares pb - pb_q4w pb /\ ed_index d + (Z.min (ec_exp cfg) (c_now c) - ed_last d) * ec_eps cfg * 10000000 / (pb_shares pb - pb_q4w pb) <= i128_max) ->
  exists d' x1, b_update_data c x p pb cfg = Ok (d', x1) /\ ed_last d' <= c_now c /\ frozen p x1 x1.
Proof.
  intros Hd Hl Hidx Heps Hq Hs Hnow Hm Hdue. unfold b_update_data. rewrite Hd. cbn [unwrap unwrap_or bind].
  destruct (_ || _) eqn:E; [exists d, x; split; [done|]; split; [lia|done]|].
  rewrite !orb_false_iff, Z.leb_gt, !Z.eqb_neq in E. destruct E as [[[D1 D2] D3] D4]. destruct (Hdue ltac:(lia)) as [Hu Hi].
  rewrite (i128_fits (pb_shares pb - _)) by (unfold i128_min; lia). cbn [bind]. unfold b_nonneg. rewrite (proj2 (Z.ltb_ge _ 0)) by lia. cbn [bind].
  assert ((if ec_exp cfg <? c_now c then ec_exp cfg else c_now c) = Z.min (ec_exp cfg) (c_now c)) as -> by (destruct (Z.ltb_spec (ec_exp cfg) (c_now c)); lia).
  set (dt := Z.min (ec_exp cfg) (c_now c) - ed_last d) in *. assert (0 <= dt <= u64_max) as Hdt by (subst dt; lia).
  rewrite u64_fits by done. cbn [bind]. assert (0 <= dt * ec_eps cfg) as Hm0 by (apply Z.mul_nonneg_nonneg; lia). assert (dt * ec_eps cfg <= i128_max) by lia. rewrite i128_fits by (unfold i128_min; lia). cbn [bind].
  unfold fdiv_floor. change (let? r := i128 (dt * ec_eps cfg * SCALAR_7) in div_floor r (pb_shares pb - pb_q4w pb)) with (fmul_floor (dt * ec_eps cfg) SCALAR_7 (pb_shares pb - pb_q4w pb)).
  rewrite fmul_floor_fits by (unfold SCALAR_7; lia). cbn [bind]. unfold SCALAR_7.
  assert (0 <= dt * ec_eps cfg * 10000000 / (pb_shares pb - pb_q4w pb)) by (apply Z.div_pos; lia).
  rewrite i128_fits by (unfold i128_min; lia). cbn [bind]. eexists _, _. split; [done|]. simpl. split; [lia|done].
Qed.
Lemma ecfg_total c x p pb n :
  (forall cfg, bs_ecfg (x_bs x) !! p = Some cfg -> exists d' x1, b_update_data c x p pb cfg = Ok (d', x1)) ->
  0 <= n -> 0 <= c_now c -> c_now c + 604800 <= u64_max -> n <= 604800 * u64_max ->
  (forall cfg, bs_ecfg (x_bs x) !! p = Some cfg -> 0 <= ec_eps cfg /\ ec_exp cfg <= u64_max /\ ec_eps cfg * Z.max 0 (ec_exp cfg - c_now c) <= u64_max /\
     n + ec_eps cfg * Z.max 0 (ec_exp cfg - c_now c) <= 604800 * u64_max) ->
  exists x', b_set_ecfg c x p pb n = Ok x'.
Proof.
  intros Hu Hn Hc0 Hc Hn2 Hcfg. unfold b_set_ecfg.
  match goal with |- exists _, bind ?m _ = _ => assert (exists l y, m = Ok (l, y) /\ 0 <= l <= 604800 * u64_max) as (l & y & -> & Hl) end.
  { destruct (bs_ecfg (x_bs x) !! p) as [cfg|] eqn:Ec; [|eexists _, _; split; [done|]; lia].
    destruct (Hu _ eq_refl) as (d' & x1 & ->). destruct (Hcfg _ eq_refl) as (Heps & Hexp & Hlo & Hsum). cbn [bind].
    destruct (Z.ltb_spec (c_now c) (ec_exp cfg)) as [Hlt|]; [|eexists _, _; split; [done|]; lia]. rewrite Z.max_r in Hlo, Hsum by lia.
    assert (0 <= ec_eps cfg * (ec_exp cfg - c_now c)) by (apply Z.mul_nonneg_nonneg; lia).
    rewrite u64_fits by lia. cbn [bind]. rewrite u64_fits by lia. cbn [bind]. rewrite i128_fits by (unfold i128_min, i128_max, u64_max in *; lia). cbn [bind].
    eexists _, _. split; [done|]. lia. }
  cbn [bind]. change (7 * 24 * 60 * 60) with 604800. rewrite (u64_fits (c_now c + 604800)) by lia. cbn [bind]. rewrite Z.quot_div_nonneg by lia.
  rewrite u64_fits; [cbn [bind]; eauto|]. split; [apply Z.div_pos; lia|]. apply Z.div_le_upper_bound; lia.
Qed.

(** ** Emission streams last at most a week *)
Definition week_ok (now : Z) (x : Ext) : Prop := forall p cfg, bs_ecfg (x_bs x) !! p = Some cfg -> ec_exp cfg <= now + 604800.
Lemma emove_week c ok em cl x x' : emove c ok em cl x x' -> emis_nonneg x -> week_ok (c_now c) x -> week_ok (c_now c) x'.
Proof.
  intros H Hn W. destruct H as [x x' (H1 & H2 & H3 & _) _|x p u n x' _ H|x p u n x' _ _ H|x x' p u ub (H1 & H2 & H3 & _) _ _ _|x p np nb x1 x' _ _ H (H1 & H2 & H3 & _) _]; intros q cfg Hq; simpl in Hq.
  - by rewrite ?H1, ?H2, ?H3 in Hq; eapply W.
  - apply emis_frame_b in H as (? & ? & ->). by eapply W.
  - apply emis_frame_b in H as (? & ? & ->). by eapply W.
  - by rewrite ?H1, ?H2, ?H3 in Hq; eapply W.
  - rewrite ?H1, ?H2, ?H3 in Hq. unfold b_set_ecfg in H. mon H. simpl in Hq. destruct (decide (p = q)) as [->|Hne].
    + rewrite lookup_insert in Hq. injection Hq as <-. simpl. match goal with E : u64 (c_now c + _) = Ok _ |- _ => apply u64_ok in E as [-> _] end. lia.
    + rewrite lookup_insert_ne in Hq by done. destruct (bs_ecfg (x_bs x) !! p) eqn:Ec; mon E; [|by eapply W].
      match goal with E : b_update_data _ _ _ _ _ = Ok _ |- _ => apply emis_frame_data in E as (? & ? & ->) end.
      destruct (_ <? _); mon E; destruct (negb _); by eapply W.
Qed.
Lemma reachable_week w : reachable w -> week_ok (w_now w) (w_ext w).
Proof.
  revert w. apply reach_inv'.
  - intros w (now & seq & t & o & lp & -> & _) p cfg. simpl. by rewrite lookup_empty.
  - intros w o out w' Hr I H. destruct (reachable_ginv w Hr) as [Hb He].
    pose proof (exec_emoves _ _ _ _ H (binv_free _ _ Hb) He (fun p => binv_pool _ _ p Hb)) as Hm. pose proof (exec_now _ _ _ _ H) as Hn.
    assert (week_ok (w_now w) (w_ext w')) as Hw; [|intros p cfg Hp; specialize (Hw p cfg Hp); lia].
    change (w_now w) with (c_now (ctx w (sig_of o))) in He, I |- *.
    clear Hb Hn. revert He I. induction Hm as [|x y z M _ IH]; [done|]. intros He I. apply IH; [by eapply emove_einv|]. eapply emove_week; [done|apply He|done].
Qed.

Lemma reachable_pemis w p : reachable w -> 0 <= get_pemis (w_ext w) p.
Proof.
  intros Hr. revert w Hr p. apply (reach_inv' (fun w => forall p, 0 <= get_pemis (w_ext w) p)).
  - intros w (now & seq & t & o & lp & -> & _) p. unfold get_pemis. simpl. by rewrite lookup_empty.
  - intros w o out w' Hr I H p. pose proof (exec_dmoves _ _ _ _ H) as Hd.
    assert (forall cl x x', dmoves cl x x' -> (forall p, 0 <= get_pemis x p) -> forall p, 0 <= get_pemis x' p) as Hk.
    { clear. induction 1 as [|x y z M _ IH]; [done|]. intros Hx. apply IH. intros p. destruct M as [x x' (Q1 & Q2 & _)|c x q n x' M|x x' tok to n M].
      - unfold get_pemis in *. by rewrite Q2.
      - unfold b_gulp_pool in M. mon M. unfold get_pemis in *. simpl. destruct (decide (q = p)) as [->|]; [by rewrite lookup_insert|rewrite lookup_insert_ne by done; apply Hx].
      - unfold get_pemis in *. by rewrite M. }
    destruct o as [sg o|sg a o|sg ad sa orc ra mp|b|dt ds|orc|n|b t u|b r|].
    2-10: by eapply Hk.
    destruct o; try (by eapply Hk); clear Hd; unfold exec in H; mon H; simpl in E; unfold ret_unit, ret_z in E; mon E; simpl.
    + unfold b_initialize in E0. mon E0. apply I.
    + apply add_reward_fields in E0 as (_ & _ & F & _). unfold get_pemis. rewrite F. apply I.
    + destruct (b_gulp_spec _ _ _ _ _ E0 (reachable_binv _ Hr)) as (el & tot & evs & _ & _ & _ & _ & _ & _ & _ & _ & _ & A10 & _ & _ & _ & _ & A14).
      rewrite A14. specialize (I p). assert (0 <= alloc_pool evs p); [|lia]. unfold alloc_pool. apply sumz_nonneg. intros e' He. rewrite Forall_forall in A10. specialize (A10 e' He).
      destruct e'; simpl in *; try lia. destruct (_ =? _); lia.
Qed.

(** ** C63: distribution *)
Lemma non_queued_total w p : reachable w -> pb_q4w (pool_bal w p) * pb_tokens (pool_bal w p) <= i128_max ->
  non_queued (pool_bal w p) = Ok (unqueued_tokens w p) /\ 0 <= unqueued_tokens w p <= i128_max.
Proof.
  intros Hr Hf. destruct (binv_pool _ _ p (reachable_binv _ Hr)) as [P1 P2]. fold (pool_bal w p) in P1, P2. destruct (reachable_fit _ Hr p) as [_ Hfit]. fold (pool_bal w p) in Hfit.
  unfold non_queued, unqueued_tokens, tokens_for, to_tokens. destruct (Z.eqb_spec (pb_shares (pool_bal w p)) 0).
  - cbn [bind]. rewrite i128_fits by (unfold i128_min; lia). split; [done|lia].
  - rewrite fmul_floor_fits by nia. cbn [bind].
    assert (0 <= pb_q4w (pool_bal w p) * pb_tokens (pool_bal w p) / pb_shares (pool_bal w p)) by (apply Z.div_pos; nia).
    assert (pb_q4w (pool_bal w p) * pb_tokens (pool_bal w p) / pb_shares (pool_bal w p) <= pb_tokens (pool_bal w p)) by (apply Z.div_le_upper_bound; nia).
    rewrite i128_fits by (unfold i128_min; lia). split; [done|lia].
Qed.
Lemma zone_bound w p : reachable w -> (forall p, p ∈ zone w -> pb_q4w (pool_bal w p) * pb_tokens (pool_bal w p) <= i128_max) -> p ∈ zone w -> 0 <= unqueued_tokens w p <= zone_tokens w.
Proof.
  intros Hr Hf Hp. split; [by apply non_queued_total, Hf|]. unfold zone_tokens. apply elem_of_list_split in Hp as (l1 & l2 & Ez).
  assert (forall l, (forall q, q ∈ l -> q ∈ zone w) -> 0 <= sumz (unqueued_tokens w) l) as Hpos.
  { intros l Hl. apply sumz_nonneg. intros q Hq. by apply non_queued_total, Hf, Hl. }
  rewrite Ez, sumz_app, sumz_cons. pose proof (Hpos l1 ltac:(intros; rewrite Ez; set_solver)). pose proof (Hpos l2 ltac:(intros; rewrite Ez; set_solver)). lia.
Qed.
Lemma gulp_sum_total w x l : reachable w -> (forall p, p ∈ l -> pb_q4w (pool_bal w p) * pb_tokens (pool_bal w p) <= i128_max) -> bs_pool (x_bs x) = bs_pool (x_bs (w_ext w)) ->
  sumz (unqueued_tokens w) l <= i128_max -> gulp_sum x l = Ok (sumz (unqueued_tokens w) l).
Proof.
  intros Hr Hf Hx. unfold gulp_sum.
  assert (forall l a, (forall p, p ∈ l -> pb_q4w (pool_bal w p) * pb_tokens (pool_bal w p) <= i128_max) -> 0 <= a -> a + sumz (unqueued_tokens w) l <= i128_max ->
    foldM (fun s p => let? n := non_queued (get_pb x p) in i128 (s + n)) a l = Ok (a + sumz (unqueued_tokens w) l)) as H.
  { clear Hf l. induction l as [|p l IH]; intros a Hf Ha Hs; [simpl; f_equal; lia|]. rewrite sumz_cons in *. cbn [foldM].
    rewrite (get_pb_same _ _ p Hx). fold (pool_bal w p). destruct (non_queued_total w p Hr (Hf p ltac:(left))) as [-> Hp]. cbn [bind].
    assert (0 <= sumz (unqueued_tokens w) l) by (apply sumz_nonneg; intros q Hq; apply non_queued_total; [done|apply Hf; by right]).
    rewrite i128_fits by (unfold i128_min; lia). cbn [bind]. rewrite IH; [f_equal; lia|intros; apply Hf; by right|lia|lia]. }
  intros Hs. rewrite H; [done|done|lia|lia].
Qed.
(** what the loop reads about [p] is as in [w] *)
Definition kept (w : World) (y : Ext) (p : Addr) : Prop :=
  frozen p (w_ext w) y /\ get_pb y p = pool_bal w p /\ get_pemis y p = get_pemis (w_ext w) p.
Lemma one_total w sg y p tp tb : reachable w -> gulp_fits w -> p ∈ zone w -> ~ stuck w p -> 0 < zone_tokens w -> kept w y p ->
  0 <= tp <= undistributed w -> 0 <= tb <= undistributed w -> exists y', gulp_one (ctx w sg) (zone_tokens w) tp tb y p = Ok y'.
Proof.
  intros Hr (F1 & F2 & F3 & F4) Hp Hns Hz (K1 & K2 & K3) Htp Htb. destruct (F4 p Hp) as (G1 & G2 & G3).
  destruct (non_queued_total w p Hr G1) as [Hq _]. pose proof (zone_bound w p Hr (fun q Hq => proj1 (F4 q Hq)) Hp) as Hu.
  destruct (reachable_clocks w Hr) as (C1 & C2 & _). pose proof (reachable_time w Hr) as Ht.
  assert (undistributed w <= u64_max * 10000000) as Hund.
  { unfold undistributed. destruct (em_last (emitter w) !! bs_addr) as [t|] eqn:E; simpl; [specialize (C1 _ _ E); lia|unfold u64_max in *; lia]. }
  unfold gulp_one. rewrite K2, Hq. cbn [bind]. unfold fdiv_floor.
  change (let? r := i128 (unqueued_tokens w p * SCALAR_7) in div_floor r (zone_tokens w)) with (fmul_floor (unqueued_tokens w p) SCALAR_7 (zone_tokens w)).
  rewrite fmul_floor_fits by (unfold SCALAR_7; lia). cbn [bind]. set (sh := unqueued_tokens w p * SCALAR_7 / zone_tokens w).
  assert (0 <= sh <= 10000000) as Hsh. { subst sh. unfold SCALAR_7. split; [apply Z.div_pos; lia|apply Z.div_le_upper_bound; lia]. }
  assert (forall t, 0 <= t <= undistributed w -> 0 <= sh * t <= i128_max /\ 0 <= sh * t / SCALAR_7 <= undistributed w) as Hm.
  { intros t Htt. assert (0 <= sh * t) by nia. assert (sh * t <= 10000000 * undistributed w) by nia. unfold u64_max, i128_max in *. split; [lia|]. unfold SCALAR_7.
    split; [apply Z.div_pos; lia|apply Z.div_le_upper_bound; lia]. }
  destruct (Hm tp Htp) as [M1 M2]. destruct (Hm tb Htb) as [M3 M4].
  destruct (reachable_ginv w Hr) as [Hb ((E1 & E2 & E3) & Hc & Hti)]. destruct (reachable_iinv w Hr) as (I1 & I2 & I3).
  assert (0 <= get_pemis (w_ext w) p) as Hpe.
  { by apply reachable_pemis. }
  rewrite fmul_floor_fits by (unfold SCALAR_7 in *; lia). cbn [bind]. rewrite K3, i128_fits by (unfold i128_min; lia). cbn [bind].
  rewrite fmul_floor_fits by (unfold SCALAR_7 in *; lia). cbn [bind].
  set (y1 := set_pemis y p _). destruct K1 as (Kc & Kd & _).
  destruct (ecfg_total (ctx w sg) y1 p (pool_bal w p) (sh * tb / SCALAR_7)) as [x' Hx'].
  - intros cfg Hcfg. change (bs_ecfg (x_bs y1) !! p) with (bs_ecfg (x_bs y) !! p) in Hcfg. rewrite Kc in Hcfg. destruct (I3 _ _ Hcfg) as [d Hd]. destruct (G3 _ _ Hcfg Hd) as (X1 & X2 & X3 & X4).
    destruct (update_data_total (ctx w sg) y1 p (pool_bal w p) cfg d) as (d' & x1 & Hok & _); [|..|eauto].
    + change (bs_edata (x_bs y1) !! p) with (bs_edata (x_bs y) !! p). by rewrite Kd.
    + split; [by eapply I2|by eapply Hti].
    + by eapply E1.
    + by eapply E3.
    + apply (binv_pool _ _ p Hb).
    + apply (reachable_fit _ Hr p).
    + change (w_now w <= u64_max). lia.
    + done.
    + intros Hdue. change (c_now (ctx w sg)) with (w_now w) in *. unfold index_now in X2. rewrite decide_True in X2 by done. split; [|exact X2].
      pose proof (unqueued_nonneg w p Hr). unfold unqueued in *. destruct (decide (pb_shares (pool_bal w p) - pb_q4w (pool_bal w p) = 0)) as [E|E]; [|lia]. destruct Hns. exists cfg, d. done.
  - lia.
  - simpl. lia.
  - simpl. lia.
  - lia.
  - intros cfg Hcfg. change (bs_ecfg (x_bs y1) !! p) with (bs_ecfg (x_bs y) !! p) in Hcfg. rewrite Kc in Hcfg. destruct (I3 _ _ Hcfg) as [d Hd]. destruct (G3 _ _ Hcfg Hd) as (X1 & X2 & X3 & X4).
    pose proof (reachable_week w Hr _ _ Hcfg). unfold left_over in *. simpl. split; [by eapply E3|]. split; [lia|]. split; [done|lia].
  - rewrite Hx'. cbn [bind]. eauto.
Qed.
Lemma one_kept w sg total tp tb y p y' q : gulp_one (ctx w sg) total tp tb y p = Ok y' -> p <> q -> kept w y q -> kept w y' q.
Proof.
  intros H Hne (K1 & K2 & K3). unfold gulp_one in H. mon H. match goal with E : b_set_ecfg _ _ _ _ _ = Ok _ |- _ => rename E into Es end.
  pose proof (b_set_ecfg_fields _ _ _ _ _ _ Es) as ([_ Hb2] & _). pose proof (b_set_ecfg_quiet _ _ _ _ _ _ Es) as (Q1 & Q2 & _).
  apply (ecfg_other _ _ _ _ _ _ q) in Es; [|done]. split; [eapply frozen_trans; [exact K1|exact Es]|]. split.
  - rewrite <- K2. apply get_pb_same. exact Hb2.
  - rewrite <- K3. unfold get_pemis in *. simpl in *. rewrite Q2. by rewrite lookup_insert_ne.
Qed.
Lemma gulp_loop_total w sg tp tb l y : reachable w -> gulp_fits w -> 0 < zone_tokens w -> 0 <= tp <= undistributed w -> 0 <= tb <= undistributed w -> NoDup l ->
  (forall p, p ∈ l -> p ∈ zone w /\ ~ stuck w p /\ kept w y p) -> exists y', foldM (gulp_one (ctx w sg) (zone_tokens w) tp tb) y l = Ok y'.
Proof.
  intros Hr Hf Hz H1 H2. revert y. induction l as [|p l IH]; intros y Hnd Hl; [simpl; eauto|]. inversion Hnd; subst. cbn [foldM].
  destruct (Hl p ltac:(left)) as (P1 & P2 & P3). destruct (one_total w sg y p tp tb) as [y' E]; try done. rewrite E. cbn [bind]. apply IH; [done|].
  intros q Hq. destruct (Hl q ltac:(by right)) as (Q1 & Q2 & Q3). split; [done|]. split; [done|]. eapply one_kept; [exact E| |done]. by intros ->.
Qed.
Theorem C63_distribute : forall w sg n, reachable w -> accounts sg -> bs_init (x_bs (w_ext w)) = true -> bs_emitter (x_bs (w_ext w)) = em_addr -> gulp_fits w ->
  (exists w', exec w (OExt sg BGulp) = Ok (OutZ n, w')) <->
  zone w <> [] /\ 3600 * 10000000 < undistributed w /\ 0 < zone_tokens w /\ (forall p, p ∈ zone w -> ~ stuck w p) /\ n = undistributed w.
Proof.
  intros w sg n Hr Hs Hi Hem Hf. pose proof Hf as (F1 & F2 & F3 & F4). destruct (reachable_clocks w Hr) as (C1 & C2 & C3). destruct (C3 Hi) as [el Hel].
  specialize (C1 _ _ Hel). pose proof (reachable_time w Hr) as Ht.
  assert (undistributed w = (el - bs_last (x_bs (w_ext w))) * 10000000) as Hund by (unfold undistributed; by rewrite Hel).
  assert (zone_tokens w <= i128_max) as Hzm by (unfold i128_max in *; lia).
  assert (gulp_sum (set_bs (w_ext w) (fun s => s <| bs_last := el |>)) (zone w) = Ok (zone_tokens w)) as Hgs.
  { apply gulp_sum_total; [done|intros; by apply F4|done|exact Hzm]. }
  split.
  - intros [w' H]. apply oext_iff in H as (x & H & _); [|done..]. cbn [x_exec] in H. unfold ret_z in H. apply bind_iff in H as ([k x1] & H & [= -> ->]).
    pose proof (b_gulp_spec _ _ _ _ _ H (reachable_binv _ Hr)) as (el' & tot & evs & A1 & A2 & A3 & _). unfold emitter in Hel. rewrite Hel in A1. injection A1 as <-.
    split. { intros E. unfold b_gulp, zone in *. rewrite E in H. simpl in H. discriminate. }
    split; [lia|]. split.
    { assert (0 <= zone_tokens w) as H0. { unfold zone_tokens. apply sumz_nonneg. intros q Hq. by apply non_queued_total, F4. }
      destruct (decide (zone_tokens w = 0)) as [E|]; [|lia]. exfalso. unfold b_gulp in H. fold (zone w) in H. mon H.
      unfold em_get_last in *. match goal with E : unwrap _ = Ok _ |- _ => rewrite Hel in E; injection E as <- end.
      match goal with E : gulp_sum _ _ = Ok _ |- _ => rewrite Hgs in E; injection E as <- end. 
      match goal with E : foldM (gulp_one _ _ _ _) _ _ = Ok _ |- _ => rename E into Eg end.
      destruct (zone w) as [|p l]; [done|]. cbn [foldM] in Eg. mon1 Eg. match goal with E : gulp_one _ _ _ _ _ _ = Ok _ |- _ => unfold gulp_one in E; mon1 E; mon1 E end.
      match goal with E : fdiv_floor _ _ _ = Ok _ |- _ => unfold fdiv_floor in E; mon1 E end. 
      match goal with H : div_floor _ _ = Ok _ |- _ => rewrite E in H; by apply div_floor_zero in H end. }
    split; [|by rewrite Hund]. intros p Hp Hst. apply stuck_x in Hst. apply (gulp_frozen _ _ _ _ p) in H as [_ Hno]; done.
  - intros (Hz & Hlt & Hzt & Hst & ->). setoid_rewrite oext_iff; [|done..]. cbn [x_exec]. unfold b_gulp. fold (zone w).
    rewrite (proj2 (Z.eqb_neq _ _)) by (destruct (zone w); [done|simpl; lia]). cbn [negb]. rewrite Hi, Hem, Z.eqb_refl. unfold em_get_last. unfold emitter in Hel. rewrite Hel. cbn [unwrap unwrap_or bind].
    rewrite u64_fits by lia. cbn [bind]. rewrite (proj2 (Z.leb_gt _ _)) by lia. cbn [negb]. rewrite u64_fits by lia. cbn [bind].
    change SCALAR_7 with 10000000. rewrite <- Hund.
    assert (undistributed w <= u64_max * 10000000) by lia. rewrite i128_fits by (unfold i128_min, i128_max, u64_max in *; lia). cbn [bind].
    rewrite !fmul_floor_fits by (unfold i128_max, u64_max in *; lia). cbn [bind]. rewrite Hgs. cbn [bind].
    destruct (gulp_loop_total w sg (undistributed w * 3000000 / 10000000) (undistributed w * 7000000 / 10000000) (zone w) (set_bs (w_ext w) (fun s => s <| bs_last := el |>))) as [y Hy]; try done.
    + split; [apply Z.div_pos; lia|apply Z.div_le_upper_bound; lia].
    + split; [apply Z.div_pos; lia|apply Z.div_le_upper_bound; lia].
    + by apply C46_no_duplicates_and_bounded.
    + intros p Hp. split; [done|]. split; [by apply Hst|]. done.
    + rewrite Hy. cbn [bind]. eauto.
Qed.
