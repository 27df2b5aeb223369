(** * Exits from the backstop: C45 and C53 *)
From Verif Require Import Base Types Token Emitter Factory Backstop PoolReserve PoolUser PoolHealth
  PoolAuction PoolSubmit PoolEmis PoolAdmin World Facts XMove Spec FrameFacts PoolFrame PoolCfg BackMoves BackInv BackEmis
  PropsEmitter PropsAdmin PropsBackstop PropsBackstop2 PropsBackstop3 PropsBackstop4 PoolTx Scenario.

(** ** Specification *)

(** pool [p]'s depositors have emissions to be distributed: the stream is running, or ran, since the last update *)
Definition emission_due (w : World) (p : Addr) (cfg : EmisConfig) (d : EmisData) : Prop :=
  ed_last d < ec_exp cfg /\ ed_last d < w_now w /\ ec_eps cfg <> 0 /\ pb_shares (pool_bal w p) <> 0.
Global Instance emission_due_dec w p cfg d : Decision (emission_due w p cfg d).
Proof. unfold emission_due. apply _. Defined.
Definition unqueued (w : World) (p : Addr) : Z := pb_shares (pool_bal w p) - pb_q4w (pool_bal w p).
(** the emission index of the pool now *)
Definition index_now (w : World) (p : Addr) (cfg : EmisConfig) (d : EmisData) : Z :=
  ed_index d + if decide (emission_due w p cfg d) then (Z.min (ec_exp cfg) (w_now w) - ed_last d) * ec_eps cfg * 10000000 / unqueued w p else 0.
(** the user's emissions per 7-decimal share since the user's last update *)
Definition user_gain (w : World) (p u : Addr) (cfg : EmisConfig) (d : EmisData) : Z :=
  ub_shares (user_bal w p u) * (index_now w p cfg d - buidx (w_ext w) p u).
(** the emission arithmetic of [p] and [u] stays within the 128-bit integers *)
Definition emissions_fit (w : World) (p u : Addr) (cfg : EmisConfig) (d : EmisData) : Prop :=
  (Z.min (ec_exp cfg) (w_now w) - ed_last d) * ec_eps cfg * 10000000 <= i128_max /\
  index_now w p cfg d <= i128_max /\ user_gain w p u cfg d <= i128_max /\
  buacc (w_ext w) p u + user_gain w p u cfg d / 10000000 <= i128_max.
(** nothing keeps the emissions of [p] from being updated for [u]: no emissions, or not all shares are queued *)
Definition updatable (w : World) (p u : Addr) : Prop :=
  forall cfg d, bs_ecfg (x_bs (w_ext w)) !! p = Some cfg -> bs_edata (x_bs (w_ext w)) !! p = Some d ->
    (emission_due w p cfg d -> 0 < unqueued w p) /\ emissions_fit w p u cfg d.

(** ** Invariants *)
Definition shares_fit (x : Ext) : Prop := forall p, pb_shares (get_pb x p) <= i128_max /\ pb_tokens (get_pb x p) <= i128_max.
Lemma shares_fit_upd x x' p pb : bs_pool (x_bs x') = <[p := pb]> (bs_pool (x_bs x)) -> shares_fit x -> pb_shares pb <= i128_max /\ pb_tokens pb <= i128_max -> shares_fit x'.
Proof. intros H1 H2 H3 q. rewrite (get_pb_upd _ _ _ _ q H1). by destruct (p =? q). Qed.
Lemma bmove_fit c a x x' : bmove c a x x' -> shares_fit x -> shares_fit x'.
Proof.
  intros [H _ _ _ _] F. destruct a; simpl in H.
  - intros q. rewrite (get_pb_same x x' q); [apply F|apply H].
  - intros q. rewrite (get_pb_same x x' q); [apply F|apply H].
  - intros q. rewrite (get_pb_same x x' q); [apply F|apply H].
  - destruct H as (pb & ub & _ & _ & _ & Hp & _ & _ & Hu). eapply shares_fit_upd; [exact Hu|done|]. unfold pb_deposit in Hp. mon Hp.
    apply i128_ok in E as [-> E]. apply i128_ok in E0 as [-> E0]. simpl. lia.
  - destruct H as (pb & ub & _ & _ & Hp & _ & Hu). eapply shares_fit_upd; [exact Hu|done|]. unfold pb_queue in Hp. mon Hp. simpl. apply F.
  - destruct H as (pb & ub1 & ub & _ & _ & _ & Hp & _ & Hu). eapply shares_fit_upd; [exact Hu|done|]. unfold pb_dequeue in Hp. mon Hp. simpl. apply F.
  - destruct H as (pb & ub & _ & _ & _ & _ & Hp & _ & Hu). eapply shares_fit_upd; [exact Hu|done|]. unfold pb_withdraw in Hp. mon Hp. simpl.
    apply i128_ok in E as [-> E]. apply i128_ok in E0 as [-> E0]. lia.
  - destruct H as (pb & _ & Hp & _ & Hu). eapply shares_fit_upd; [exact Hu|done|]. unfold pb_withdraw in Hp. mon Hp. simpl.
    apply i128_ok in E as [-> E]. apply i128_ok in E0 as [-> E0]. lia.
  - destruct H as (pb & _ & Hp & _ & Hu). eapply shares_fit_upd; [exact Hu|done|]. unfold pb_deposit in Hp. mon Hp. simpl.
    apply i128_ok in E as [-> E]. apply i128_ok in E0 as [-> E0]. lia.
  - destruct H as (pb & ub & _ & _ & Hp & _ & _ & Hu). eapply shares_fit_upd; [exact Hu|done|]. unfold pb_deposit in Hp. mon Hp.
    apply i128_ok in E as [-> E]. apply i128_ok in E0 as [-> E0]. simpl. lia.
Qed.
Lemma reachable_fit w : reachable w -> shares_fit (w_ext w).
Proof.
  revert w. apply reach_inv'.
  - intros w (now & seq & t & o & lp & -> & _) p. unfold get_pb. simpl. rewrite lookup_empty. simpl. unfold i128_max. lia.
  - intros w o out w' Hr F H. destruct (exec_acts _ _ _ _ H Hr) as (l & Hl & _). revert F. induction Hl; [done|]. intros F. apply IHHl. by eapply bmove_fit.
Qed.
Lemma reachable_time w : reachable w -> 0 <= w_now w <= u64_max.
Proof.
  revert w. apply reach_inv.
  - intros w (now & seq & t & o & lp & -> & Hn & _). exact Hn.
  - intros w o out w' Hw H. unfold exec in H. destruct o; mon H; simpl; try done.
    all: try (destruct (w_pools w !! _); mon H; simpl; done).
    repeat match goal with H : (_ && _) = true |- _ => apply andb_true_iff in H as [? ?] end.
    match goal with H : in_u64 _ = true |- _ => apply in_u64_iff in H end. done.
Qed.

(** user indexes never run ahead of the pool's, clocks are nonnegative, configured emissions have data *)
Definition iinv (x : Ext) : Prop :=
  (forall p u, buidx x p u <= bidx x p) /\ (forall p d, bs_edata (x_bs x) !! p = Some d -> 0 <= ed_last d) /\
  (forall p cfg, bs_ecfg (x_bs x) !! p = Some cfg -> is_Some (bs_edata (x_bs x) !! p)).
Lemma same_emis_iinv x x' : same_emis x x' -> iinv x -> iinv x'.
Proof. intros (H1 & H2 & H3 & _) (I1 & I2 & I3). unfold iinv, buidx, bidx. rewrite H1, H2, H3. done. Qed.
Lemma emissions_iinv c x p u pb ub cl n x' : 0 <= c_now c -> einv (c_now c) x -> iinv x ->
  b_emissions c x p pb u ub cl = Ok (n, x') -> iinv x'.
Proof.
  intros Hn ((E1 & E2 & E3) & _ & _) (I1 & I2 & I3) H. destruct (bs_ecfg (x_bs x) !! p) as [cfg|] eqn:Ec.
  - pose proof (E3 _ _ Ec) as He. destruct (b_emissions_some _ _ _ _ _ _ _ _ _ _ H Ec He) as (d & d' & ue' & Ed & -> & Hd & Hi & _).
    assert (ed_index d <= ed_index d' /\ 0 <= ed_last d') as [Hle Hl].
    { pose proof (I2 _ _ Ed). destruct Hd as [[-> _]|(-> & ? & ? & ? & ? & ? & ->)]; [lia|]. split; [|done].
      assert (0 <= (Z.min (ec_exp cfg) (c_now c) - ed_last d) * ec_eps cfg * 10000000 / (pb_shares pb - pb_q4w pb)); [|lia].
      apply Z.div_pos; [|lia]. apply Z.mul_nonneg_nonneg; [|lia]. apply Z.mul_nonneg_nonneg; lia. }
    split; [|split]; simpl.
    + intros q v. unfold buidx, bidx. simpl. specialize (I1 q v). unfold buidx, bidx in I1.
      destruct (decide (p = q)) as [<-|Hne].
      * rewrite lookup_insert. simpl. rewrite Ed in I1. simpl in I1. destruct (decide (u = v)) as [<-|Hu].
        -- rewrite lookup_insert. simpl. lia.
        -- rewrite lookup_insert_ne by congruence. lia.
      * rewrite !lookup_insert_ne by congruence. done.
    + intros q e. rewrite lookup_insert_Some. intros [[_ <-]|[_ ?]]; [done|by eapply I2].
    + intros q cf Hq. destruct (decide (p = q)) as [<-|]; [rewrite lookup_insert; eauto|rewrite lookup_insert_ne by done; by eapply I3].
  - apply b_emissions_none in H as [_ ->]; done.
Qed.
Lemma emove_iinv c ok em cl x x' : 0 <= c_now c -> emove c ok em cl x x' -> einv (c_now c) x -> iinv x -> iinv x'.
Proof.
  intros Hn H He Hi. destruct H as [x x' S _|x p u n x' _ E|x p u n x' _ _ E|x x' p u ub S _ _ _|x p np nb x1 x' Hf Hnb E S _].
  - by eapply same_emis_iinv.
  - by eapply emissions_iinv.
  - by eapply (emissions_iinv _ _ _ _ _ _ _ _ _ Hn He Hi) in E.
  - by eapply same_emis_iinv.
  - assert (iinv x1) as H1; [|by eapply same_emis_iinv in S].
    destruct (b_set_ecfg_spec _ _ _ _ _ _ E He Hnb) as (d' & -> & Hl & Hd). destruct Hi as (I1 & I2 & I3), He as ((E1 & E2 & E3) & Hc & _).
    assert (bidx x p <= ed_index d') as Hle.
    { unfold bidx. destruct (bs_ecfg (x_bs x) !! p) as [cfg|] eqn:Ec.
      - destruct Hd as (d & Ed & Hor). rewrite Ed. simpl. destruct Hor as [[-> _]|(? & ? & ? & ->)]; [lia|]. pose proof (E3 _ _ Ec).
        assert (0 <= (Z.min (ec_exp cfg) (c_now c) - ed_last d) * ec_eps cfg * 10000000 / (pb_shares (get_pb x p) - pb_q4w (get_pb x p))); [|lia].
        apply Z.div_pos; [|lia]. apply Z.mul_nonneg_nonneg; [|lia]. apply Z.mul_nonneg_nonneg; lia.
      - destruct (Hc _ Ec) as [-> _]. simpl. lia. }
    split; [|split]; simpl.
    + intros q v. specialize (I1 q v). unfold buidx, bidx in *. simpl. destruct (decide (p = q)) as [<-|Hne].
      * rewrite lookup_insert. simpl. lia.
      * rewrite lookup_insert_ne by done. done.
    + intros q e. rewrite lookup_insert_Some. intros [[_ <-]|[_ ?]]; [lia|by eapply I2].
    + intros q cf. rewrite lookup_insert_Some. intros [[<- _]|[Hne Hq]]; [rewrite lookup_insert; eauto|rewrite lookup_insert_ne by done; by eapply I3].
Qed.
Lemma reachable_iinv w : reachable w -> iinv (w_ext w).
Proof.
  revert w. apply reach_inv'.
  - intros w (now & seq & t & o & lp & -> & _). split; [|split]; simpl; unfold buidx, bidx; simpl; intros *; by rewrite ?lookup_empty.
  - intros w o out w' Hr I H. destruct (reachable_ginv w Hr) as [Hb He].
    pose proof (exec_emoves _ _ _ _ H (binv_free _ _ Hb) He (fun p => binv_pool _ _ p Hb)) as Hm.
    pose proof (reachable_time _ Hr) as Ht.
    change (w_now w) with (c_now (ctx w (sig_of o))) in He, Ht.
    clear Hb. revert He I. induction Hm as [|x y z M _ IH]; [done|]. intros He I. apply IH; [by eapply emove_einv|]. eapply emove_iinv; try done. lia.
Qed.

Lemma i128_fits x : i128_min <= x <= i128_max -> i128 x = Ok x.
Proof. intros H. unfold i128. by rewrite (proj2 (in_i128_iff x) H). Qed.
Lemma u64_fits x : 0 <= x <= u64_max -> u64 x = Ok x.
Proof. intros H. unfold u64. by rewrite (proj2 (in_u64_iff x) H). Qed.
Lemma fmul_floor_fits x y d : 0 <= x * y <= i128_max -> 0 < d -> fmul_floor x y d = Ok (x * y / d).
Proof.
  intros H Hd. unfold fmul_floor. rewrite i128_fits by (unfold i128_min; lia). simpl. unfold div_floor.
  rewrite (proj2 (Z.eqb_neq d 0)) by lia. rewrite (proj2 (Z.ltb_ge (x * y) 0)), (proj2 (Z.ltb_ge d 0)), andb_false_r by lia. cbn [orb].
  rewrite Z.quot_div_nonneg by lia. apply i128_fits. pose proof (Z.div_pos (x * y) d ltac:(lia) Hd). pose proof (Z.div_le_upper_bound (x * y) d (x * y) Hd ltac:(nia)). unfold i128_min. lia.
Qed.

(** ** The emission update of a pool and user succeeds *)
Lemma emissions_succeed w sg p u : reachable w -> updatable w p u ->
  exists x', b_emissions (ctx w sg) (w_ext w) p (pool_bal w p) u (user_bal w p u) false = Ok (0, x').
Proof.
  intros Hr Hu. destruct (reachable_ginv w Hr) as [Hb ((E1 & E2 & E3) & Hc & Ht)]. destruct (reachable_iinv w Hr) as (I1 & I2 & I3).
  pose proof (reachable_time _ Hr) as Hnow. pose proof (binv_pool _ _ p Hb) as [Hsh _]. pose proof (proj1 (bi_get _ _ p u Hb)) as Hus.
  unfold b_emissions. destruct (bs_ecfg (x_bs (w_ext w)) !! p) as [cfg|] eqn:Ec; [|eauto].
  destruct (I3 _ _ Ec) as [d Ed]. destruct (Hu _ _ Ec Ed) as [Hfree (F1 & F2 & F3 & F4)].
  pose proof (E3 _ _ Ec) as Heps. pose proof (E1 _ _ Ed) as Hidx. pose proof (Ht _ _ Ed) as Hlast. pose proof (I2 _ _ Ed) as Hl0.
  pose proof (reachable_fit _ Hr p) as [Hfit _]. fold (pool_bal w p) in *. fold (user_bal w p u) in *.
  assert (exists d' x1, b_update_data (ctx w sg) (w_ext w) p (pool_bal w p) cfg = Ok (d', x1) /\ ed_index d' = index_now w p cfg d /\ ed_index d <= ed_index d' /\
    bs_uemis (x_bs x1) = bs_uemis (x_bs (w_ext w))) as (d' & x1 & -> & Hi & Hmono & Hue).
  { unfold b_update_data. rewrite Ed. cbn [unwrap bind]. unfold index_now in *. change (c_now (ctx w sg)) with (w_now w).
    destruct (decide (emission_due w p cfg d)) as [Hdue|Hdue].
    - destruct Hdue as (D1 & D2 & D3 & D4). specialize (Hfree (conj D1 (conj D2 (conj D3 D4)))). unfold unqueued in *.
      rewrite (proj2 (Z.leb_gt _ _)), (proj2 (Z.eqb_neq (w_now w) _)), (proj2 (Z.eqb_neq (ec_eps cfg) _)), (proj2 (Z.eqb_neq (pb_shares _) _)) by lia. cbn [orb].
      rewrite (i128_fits (pb_shares (pool_bal w p) - _)) by (unfold i128_min; lia). cbn [bind]. unfold b_nonneg. rewrite (proj2 (Z.ltb_ge _ 0)) by lia. cbn [bind].
      assert ((if ec_exp cfg <? w_now w then ec_exp cfg else w_now w) = Z.min (ec_exp cfg) (w_now w)) as -> by (destruct (Z.ltb_spec (ec_exp cfg) (w_now w)); lia).
      set (dt := Z.min (ec_exp cfg) (w_now w) - ed_last d) in *. assert (0 <= dt <= u64_max) as Hdt by (subst dt; lia).
      rewrite u64_fits by done. cbn [bind]. assert (0 <= dt * ec_eps cfg) as Hm by nia. rewrite i128_fits by (unfold i128_min; lia). cbn [bind].
      unfold fdiv_floor. change (let? r := i128 (dt * ec_eps cfg * SCALAR_7) in div_floor r (pb_shares (pool_bal w p) - pb_q4w (pool_bal w p))) with (fmul_floor (dt * ec_eps cfg) SCALAR_7 (pb_shares (pool_bal w p) - pb_q4w (pool_bal w p))).
      rewrite fmul_floor_fits by (unfold SCALAR_7; lia). cbn [bind]. unfold SCALAR_7.
      assert (0 <= dt * ec_eps cfg * 10000000 / (pb_shares (pool_bal w p) - pb_q4w (pool_bal w p))) by (apply Z.div_pos; lia).
      rewrite i128_fits by (unfold i128_min; lia). cbn [bind]. eexists _, _. split; [done|]. simpl. split; [lia|]. split; [lia|done].
    - assert ((ec_exp cfg <=? ed_last d) || (w_now w =? ed_last d) || (ec_eps cfg =? 0) || (pb_shares (pool_bal w p) =? 0) = true) as ->.
      { destruct (Z.leb_spec (ec_exp cfg) (ed_last d)); [done|]. destruct (Z.eqb_spec (w_now w) (ed_last d)); [done|].
        destruct (Z.eqb_spec (ec_eps cfg) 0); [done|]. destruct (Z.eqb_spec (pb_shares (pool_bal w p)) 0); [done|]. exfalso. apply Hdue. unfold emission_due. lia. }
      exists d, (w_ext w). split; [done|]. split; [lia|]. split; [lia|done]. }
  cbn [bind]. unfold b_update_user. rewrite Hue. specialize (I1 p u). unfold user_gain in *. unfold buidx, bidx, buacc in *. rewrite Ed in I1. simpl in I1.
  rewrite <- Hi in F2, F3, F4. set (s := ub_shares (user_bal w p u)) in *.
  destruct (bs_uemis (x_bs (w_ext w)) !! (p, u)) as [ud|] eqn:Eu; simpl in F3, F4, I1.
  - pose proof (E2 _ _ _ Eu) as Hacc. destruct (negb (ue_index ud =? ed_index d') || false); [|eauto]. destruct (s =? 0) eqn:Es; [unfold b_set_user; eauto|].
    assert (0 <= s * (ed_index d' - ue_index ud)) by (subst s; nia).
    rewrite (i128_fits (ed_index d' - ue_index ud)) by (unfold i128_min, i128_max in *; subst s; nia). cbn [bind]. unfold b_nonneg. rewrite (proj2 (Z.ltb_ge _ 0)) by lia. cbn [bind].
    rewrite fmul_floor_fits by (unfold SCALAR_7; lia). cbn [bind]. unfold SCALAR_7.
    assert (0 <= s * (ed_index d' - ue_index ud) / 10000000) by (apply Z.div_pos; lia).
    rewrite i128_fits by (unfold i128_min; lia). cbn [bind]. unfold b_set_user. eauto.
  - destruct (s =? 0) eqn:Es; [unfold b_set_user; eauto|]. rewrite Z.sub_0_r in F3, F4.
    rewrite fmul_floor_fits by (unfold SCALAR_7; subst s; nia). cbn [bind]. unfold b_set_user. eauto.
Qed.

(** ** The queue *)
Lemma dequeue_any now n q : 0 <= n <= sumz q_amount q -> sumz q_amount q <= i128_max -> Forall (fun e => 0 <= q_amount e) q ->
  exists q', dequeue_loop now false n q = Ok (0, q').
Proof.
  revert n. induction q as [|e q IH]; intros n Hn Hm Hf.
  - rewrite sumz_nil in Hn. simpl. assert (n = 0) as -> by lia. eauto.
  - rewrite sumz_cons in *. inversion Hf as [|? ? He Hq]; subst. cbn [dequeue_loop negb orb].
    assert (0 <= sumz q_amount q) by (apply sumz_nonneg; intros; by eapply Forall_forall in Hq).
    destruct (Z.ltb_spec n (q_amount e)); [rewrite i128_fits by (unfold i128_min; lia); simpl; eauto|].
    destruct (q_amount e =? n); [eauto|]. rewrite i128_fits by (unfold i128_min; lia). cbn [bind]. apply IH; [lia|lia|done].
Qed.
(** shares in entries that have expired at [now] *)
Lemma dequeue_expired_ok now n q : 0 < n <= sumz (fun e => if q_exp e <=? now then q_amount e else 0) q -> sumz q_amount q <= i128_max ->
  Forall (fun e => 0 <= q_amount e) q -> Sorted (fun a b => q_exp a <= q_exp b) q ->
  exists q', dequeue_loop now true n q = Ok (0, q').
Proof.
  revert n. induction q as [|e q IH]; intros n Hn Hm Hf Hs.
  - rewrite sumz_nil in Hn. lia.
  - rewrite sumz_cons in *. inversion Hf as [|? ? He Hq]; subst. cbn [dequeue_loop negb orb].
    assert (0 <= sumz q_amount q) by (apply sumz_nonneg; intros; by eapply Forall_forall in Hq).
    assert (sumz (fun e => if q_exp e <=? now then q_amount e else 0) q <= sumz q_amount q) as Hle.
    { clear - Hq. induction Hq as [|b q Hb _ IH]; [done|]. rewrite !sumz_cons. destruct (q_exp b <=? now); lia. }
    cbv beta in Hn. destruct (Z.leb_spec (q_exp e) now) as [Hx|Hx].
    + destruct (Z.ltb_spec n (q_amount e)); [rewrite i128_fits by (unfold i128_min; lia); simpl; eauto|].
      destruct (Z.eqb_spec (q_amount e) n); [eauto|]. rewrite i128_fits by (unfold i128_min; lia). cbn [bind]. apply IH; [lia|lia|done|by inversion Hs].
    + exfalso. assert (sumz (fun e => if q_exp e <=? now then q_amount e else 0) q = 0) as Hz; [|lia].
      assert (forall b, b ∈ q -> q_exp e <= q_exp b) as Hall.
      { apply Sorted_StronglySorted in Hs; [|intros ? ? ?; lia]. inversion Hs as [|? ? _ Hfa]; subst. intros b Hb. by eapply Forall_forall in Hfa. }
      clear - Hall Hx. induction q as [|b q IH]; [done|]. rewrite sumz_cons, IH by (intros; apply Hall; by right).
      specialize (Hall b ltac:(left)). rewrite (proj2 (Z.leb_gt _ _)) by lia. done.
Qed.

Lemma user_queued_le w p u : reachable w -> 0 <= ub_shares (user_bal w p u) /\ 0 <= queued_of w p u /\
  ub_shares (user_bal w p u) + queued_of w p u <= pb_shares (pool_bal w p) /\ queued_of w p u <= pb_q4w (pool_bal w p) /\
  ub_shares (user_bal w p u) + pb_q4w (pool_bal w p) <= pb_shares (pool_bal w p).
Proof.
  intros Hr. pose proof (reachable_binv w Hr) as Hb. destruct (bi_get _ _ p u Hb) as (H1 & H2 & _).
  pose proof (queued_nonneg _ _ H2) as H3. destruct (bi_pools _ _ Hb p) as (_ & E1 & E2).
  pose proof (usum_list ub_shares (w_ext w) p [u] (fun p u b H => proj1 (bi_users _ _ Hb p u b H)) eq_refl ltac:(apply NoDup_singleton)) as L1.
  assert (forall p u b, bs_user (x_bs (w_ext w)) !! (p, u) = Some b -> 0 <= queued b) as Hq.
  { intros p' u' b Hu. destruct (bi_users _ _ Hb _ _ _ Hu) as (_ & H & _). by eapply queued_nonneg. }
  pose proof (usum_list queued (w_ext w) p [u] Hq eq_refl ltac:(apply NoDup_singleton)) as L2.
  rewrite sumz_cons, sumz_nil in L1, L2. unfold queued_of, user_bal, pool_bal. unfold queued in *. lia.
Qed.

Lemma auth_of w sg u : u ∈ sg -> need_auth (ctx w sg) u = Ok tt.
Proof. intros H. unfold need_auth. simpl. by rewrite (proj2 (mem_addr_in u sg) H). Qed.

(** C45: a user with queued shares can take them out of the queue, unless all shares of a pool
    with emissions to distribute are queued *)
Theorem C45_dequeue_possible : forall w sg p u n,
  reachable w -> u ∈ sg -> forallb ok_signer sg = true -> 0 <= n <= queued_of w p u -> updatable w p u ->
  succeeds w (OExt sg (BDequeue u p n)).
Proof.
  intros w sg p u n Hr Hsg Hok Hn Hup. destruct (emissions_succeed w sg p u Hr Hup) as [x1 E].
  pose proof (user_queued_le w p u Hr) as (U1 & U2 & U3 & U4 & U5). pose proof (reachable_fit _ Hr p) as [Hfit _]. fold (pool_bal w p) in Hfit.
  pose proof (reachable_binv w Hr) as Hb. destruct (bi_get _ _ p u Hb) as (_ & Hq & _).
  destruct (binv_pool _ _ p Hb) as [Hp1 _]. fold (pool_bal w p) in Hp1.
  assert (Forall (fun e => 0 <= q_amount e) (ub_q4w (user_bal w p u))) as Hq'. { eapply Forall_impl; [exact Hq|]. simpl. tauto. }
  destruct (dequeue_any (w_now w) n (ub_q4w (user_bal w p u)) Hn ltac:(unfold queued_of in *; lia) Hq') as [q' Eq].
  unfold succeeds, exec. rewrite Hok. assert (ty_xop (BDequeue u p n) = true) as -> by (simpl; apply in_i128_iff; unfold i128_min; lia). cbn [andb].
  cbn [x_exec]. unfold b_dequeue. rewrite (auth_of _ _ _ Hsg). cbn [bind]. unfold b_nonneg. rewrite (proj2 (Z.ltb_ge n 0)) by lia. cbn [bind].
  fold (pool_bal w p) (user_bal w p u). rewrite E. cbn [bind]. unfold ub_dequeue. change (c_now (ctx w sg)) with (w_now w). rewrite Eq. cbn [bind].
  change (0 <? 0) with false. cbn [negb bind]. unfold ub_add. change (ub_shares (user_bal w p u <| ub_q4w := q' |>)) with (ub_shares (user_bal w p u)). rewrite i128_fits by (unfold i128_min; lia). cbn [bind].
  unfold pb_dequeue. rewrite (proj2 (Z.ltb_ge _ _)) by lia. cbn [negb]. rewrite i128_fits by (unfold i128_min; lia). cbn [bind]. eauto.
Qed.

(** C53: shares whose 21 days are over can always be withdrawn for their tokens *)
Theorem C53_withdraw_possible : forall w sg p u n,
  reachable w -> u ∈ sg -> forallb ok_signer sg = true -> bs_init (x_bs (w_ext w)) = true ->
  bs_token (x_bs (w_ext w)) <> bs_blnd (x_bs (w_ext w)) ->
  0 < n <= expired (w_now w) (ub_q4w (user_bal w p u)) ->
  (* the shares are worth at least one token unit, and 128-bit integers suffice *)
  0 < n * pb_tokens (pool_bal w p) / pb_shares (pool_bal w p) -> n * pb_tokens (pool_bal w p) <= i128_max ->
  balance (x_tok (w_ext w)) (bs_token (x_bs (w_ext w))) u + n * pb_tokens (pool_bal w p) / pb_shares (pool_bal w p) <= i128_max ->
  succeeds w (OExt sg (BWithdraw u p n)).
Proof.
  intros w sg p u n Hr Hsg Hok Hi Hne Hn Hret Hfit Hbal. pose proof (user_queued_le w p u Hr) as (U1 & U2 & U3 & U4 & U5).
  pose proof (reachable_fit _ Hr p) as [Hf1 Hf2]. fold (pool_bal w p) in Hf1, Hf2. pose proof (reachable_binv w Hr) as Hb.
  destruct (bi_get _ _ p u Hb) as (_ & Hq & _ & Hs). destruct (binv_pool _ _ p Hb) as [Hp1 Hp2]. fold (pool_bal w p) in Hp1, Hp2.
  assert (Forall (fun e => 0 <= q_amount e) (ub_q4w (user_bal w p u))) as Hq'. { eapply Forall_impl; [exact Hq|]. simpl. tauto. }
  destruct (dequeue_expired_ok (w_now w) n (ub_q4w (user_bal w p u)) Hn ltac:(unfold queued_of in *; lia) Hq' Hs) as [q' Eq].
  assert (n <= queued_of w p u) as Hnq.
  { unfold expired, queued_of in *. assert (sumz (fun e => if q_exp e <=? w_now w then q_amount e else 0) (ub_q4w (user_bal w p u)) <= sumz q_amount (ub_q4w (user_bal w p u))); [|lia].
    clear - Hq'. induction Hq' as [|e q He _ IH]; [done|]. rewrite !sumz_cons. destruct (q_exp e <=? w_now w); lia. }
  set (ret := n * pb_tokens (pool_bal w p) / pb_shares (pool_bal w p)) in *.
  assert (ret <= pb_tokens (pool_bal w p)) as Hrt. { subst ret. apply Z.div_le_upper_bound; nia. }
  assert (pb_tokens (pool_bal w p) <= lp_held w) as Hheld.
  { pose proof (C37_deposits_backed w Hr Hi Hne) as Hbk. assert (pb_tokens (pool_bal w p) <= recorded_tokens w); [|lia].
    unfold recorded_tokens, pool_bal, get_pb. destruct (bs_pool (x_bs (w_ext w)) !! p) as [b|] eqn:Ep; simpl; swap 1 2.
    - apply sumz_nonneg. intros [q b] Hin. apply elem_of_map_to_list in Hin. destruct (binv_pool _ _ q Hb) as [_ Hx]. unfold get_pb in Hx. rewrite Hin in Hx. exact Hx.
    - apply elem_of_map_to_list, elem_of_list_split in Ep as (m1 & m2 & Em). rewrite Em, sumz_app, sumz_cons. simpl.
      assert (forall m, (forall e, e ∈ m -> e ∈ map_to_list (bs_pool (x_bs (w_ext w)))) -> 0 <= sumz (fun e : Addr * PoolBal => pb_tokens (snd e)) m) as Hpos.
      { intros m Hm. apply sumz_nonneg. intros [q b'] Hin. apply Hm, elem_of_map_to_list in Hin. destruct (binv_pool _ _ q Hb) as [_ Hx]. unfold get_pb in Hx. rewrite Hin in Hx. exact Hx. }
      pose proof (Hpos m1 ltac:(intros; rewrite Em; set_solver)). pose proof (Hpos m2 ltac:(intros; rewrite Em; set_solver)). lia. }
  unfold succeeds, exec. rewrite Hok. assert (ty_xop (BWithdraw u p n) = true) as -> by (simpl; apply in_i128_iff; unfold i128_min; lia). cbn [andb].
  cbn [x_exec]. unfold b_withdraw. rewrite (auth_of _ _ _ Hsg). cbn [bind]. unfold b_nonneg. rewrite (proj2 (Z.ltb_ge n 0)) by lia. cbn [bind].
  fold (pool_bal w p) (user_bal w p u). unfold ub_dequeue. change (c_now (ctx w sg)) with (w_now w). rewrite Eq. cbn [bind].
  change (0 <? 0) with false. cbn [negb bind]. unfold to_tokens. rewrite (proj2 (Z.eqb_neq _ _)) by lia.
  rewrite fmul_floor_fits by nia. fold ret. cbn [bind]. rewrite (proj2 (Z.eqb_neq ret 0)) by lia. cbn [negb].
  unfold pb_withdraw. rewrite !(proj2 (Z.ltb_ge _ _)) by lia. cbn [negb orb bind].
  rewrite !i128_fits by (unfold i128_min; lia). cbn [bind].
  assert (bs_init (x_bs (set_pb (set_ub (w_ext w) p u (user_bal w p u <| ub_q4w := q' |>)) p (mkPoolBal (pb_shares (pool_bal w p) - n) (pb_tokens (pool_bal w p) - ret) (pb_q4w (pool_bal w p) - n)))) = true) as -> by exact Hi.
  unfold transfer, need_auth, as_contract. cbn. unfold tok_move. rewrite (proj2 (Z.leb_le 0 ret)) by lia.
  rewrite (proj2 (Z.leb_le ret _)) by (unfold lp_held in Hheld; lia). 
  rewrite orb_true_r. cbn [bind].
  rewrite i128_fits; [cbn [bind]; eauto|].
  rewrite balance_set_balance. pose proof (reachable_tok_nonneg w Hr (bs_token (x_bs (w_ext w))) u). pose proof (reachable_tok_nonneg w Hr (bs_token (x_bs (w_ext w))) bs_addr).
  unfold i128_min. case_bool_decide as Hbb; [destruct Hbb as [_ <-]; lia|lia].
Qed.

(** C54: a depositor can always start to leave: any part of the shares can be queued while the queue holds
    fewer than 21 entries, under the same condition as C45 *)
Theorem C54_queue_possible : forall w sg p u n,
  reachable w -> u ∈ sg -> forallb ok_signer sg = true -> 0 <= n <= ub_shares (user_bal w p u) ->
  (length (ub_q4w (user_bal w p u)) < 21)%nat -> w_now w + 21 * 86400 <= u64_max -> updatable w p u ->
  exists w', exec w (OExt sg (BQueue u p n)) = Ok (OutQ4W (mkQ4W n (w_now w + 21 * 86400)), w').
Proof.
  intros w sg p u n Hr Hsg Hok Hn Hlen Htime Hup. destruct (emissions_succeed w sg p u Hr Hup) as [x1 E].
  pose proof (user_queued_le w p u Hr) as (U1 & U2 & U3 & U4 & U5). pose proof (reachable_fit _ Hr p) as [Hfit _]. fold (pool_bal w p) in Hfit.
  pose proof (reachable_binv w Hr) as Hb. destruct (binv_pool _ _ p Hb) as [Hp1 _]. fold (pool_bal w p) in Hp1. pose proof (reachable_time w Hr) as Ht.
  unfold exec. rewrite Hok. assert (ty_xop (BQueue u p n) = true) as -> by (simpl; apply in_i128_iff; unfold i128_min; lia). cbn [andb].
  cbn [x_exec]. unfold b_queue. rewrite (auth_of _ _ _ Hsg). cbn [bind]. unfold b_nonneg. rewrite (proj2 (Z.ltb_ge n 0)) by lia. cbn [bind].
  fold (pool_bal w p) (user_bal w p u). rewrite E. cbn [bind]. unfold ub_queue. rewrite (proj2 (Z.ltb_ge _ _)) by lia. cbn [negb].
  rewrite (proj2 (Z.leb_gt _ _)) by (unfold MAX_Q4W_SIZE; lia). cbn [negb]. rewrite i128_fits by (unfold i128_min; lia). cbn [bind].
  change (c_now (ctx w sg)) with (w_now w). unfold Q4W_LOCK_TIME. rewrite u64_fits by lia. cbn [bind].
  unfold pb_queue. rewrite i128_fits by (unfold i128_min; lia). cbn [bind ub_q4w]. rewrite last_snoc. cbn [unwrap bind]. eauto.
Qed.
