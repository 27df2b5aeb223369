(** * Pool properties: C01, C02, C04, C05, C08, C09, C10, C11, C12, C23 *)
From Verif Require Import Base Types Token Emitter Factory Backstop PoolReserve PoolUser PoolHealth
  PoolAuction PoolSubmit PoolEmis PoolAdmin World Facts XMove Spec PoolFrame PoolCfg PoolAccrue PoolTrace PoolInv AuctionFacts
  PoolSim PoolReq PoolHF PoolOps PoolLiq PoolReach PoolTx FrameFacts.

(** ** Observers *)

(** the reserve list of the pool at [a] and the stored data of one reserve *)
Definition reserve_list (w : World) (a : Addr) : list Addr := ps_list (pool w a).
Definition reserve (w : World) (a r : Addr) : option ResData := ps_rdata (pool w a) !! r.
(** what get_positions reports *)
Definition positions (w : World) (a u : Addr) : Positions := get_pos (pool w a) u.
(** sum over all users of a pool of [f positions] *)
Definition all_users (w : World) (a : Addr) (f : Positions -> Z) : Z :=
  sumz (fun e => f (snd e)) (map_to_list (ps_pos (pool w a))).
(** the amount at index [i] of a position map, 0 if absent *)
Definition amount_at (m : gmap Z Z) (i : Z) : Z := default 0 (m !! i).
(** who signed a transaction *)
Definition signers (o : Op) : list Addr :=
  match o with OExt sg _ => sg | OPool sg _ _ => sg | ODeploy sg _ _ _ _ _ => sg | _ => [] end.

Lemma init_of_list w a (i : nat) r : reachable w -> reserve_list w a !! i = Some r -> good (pool w a).
Proof.
  intros Hr H. destruct (ps_init (pool w a)) eqn:E; [by apply reachable_good|].
  pose proof (cw_fresh _ (reachable_cfg_wf _ a Hr) E) as Hf. unfold reserve_list in H. rewrite Hf in H. done.
Qed.
Lemma init_of_data w a r d : reachable w -> reserve w a r = Some d -> good (pool w a).
Proof.
  intros Hr H. destruct (ps_init (pool w a)) eqn:E; [by apply reachable_good|].
  pose proof (cw_fresh _ (reachable_cfg_wf _ a Hr) E) as Hf. unfold reserve in H. rewrite Hf in H. simpl in H. by rewrite lookup_empty in H.
Qed.
Lemma init_of_pos w a u pos : reachable w -> ps_pos (pool w a) !! u = Some pos -> good (pool w a).
Proof.
  intros Hr H. destruct (ps_init (pool w a)) eqn:E; [by apply reachable_good|].
  pose proof (cw_fresh _ (reachable_cfg_wf _ a Hr) E) as Hf. rewrite Hf in H. simpl in H. by rewrite lookup_empty in H.
Qed.

(** ** C01: share supplies are the sums of user positions *)
Theorem C01_supplies_are_sums : forall w a (i : nat) r,
  reachable w -> reserve_list w a !! i = Some r ->
  exists d, reserve w a r = Some d /\
    rd_d_supply d = all_users w a (fun pos => amount_at (po_liab pos) (Z.of_nat i)) /\
    rd_b_supply d = all_users w a (fun pos => amount_at (po_coll pos) (Z.of_nat i) + amount_at (po_sup pos) (Z.of_nat i)).
Proof.
  intros w a i r Hr Hl. pose proof (init_of_list _ _ _ _ Hr Hl) as G.
  destruct (cw_idx _ (gd_cfg _ G) _ _ Hl) as (cfg & Hc & Hi).
  destruct (proj1 (gd_dom _ G r) (ex_intro _ _ Hc)) as [d Hd]. exists d. split; [exact Hd|].
  pose proof (gd_sum _ G KLiab r cfg d Hc Hd) as H1. pose proof (gd_sum _ G KColl r cfg d Hc Hd) as H2.
  rewrite Hi in H1, H2. split; [exact H1|exact H2].
Qed.

(** ** C02: stored positions are positive and refer to existing reserves *)
Theorem C02_positions_positive : forall w a u i v,
  reachable w ->
  po_liab (positions w a u) !! i = Some v \/ po_coll (positions w a u) !! i = Some v \/ po_sup (positions w a u) !! i = Some v ->
  0 < v /\ exists r, 0 <= i /\ reserve_list w a !! Z.to_nat i = Some r.
Proof.
  intros w a u i v Hr H.
  assert (good (pool w a)) as G.
  { destruct (ps_pos (pool w a) !! u) as [pos|] eqn:E; [by eapply init_of_pos|].
    unfold positions, get_pos in H. rewrite E in H. simpl in H. rewrite !lookup_empty in H. naive_solver. }
  assert (exists k, get_k k (get_pos (pool w a) u) !! i = Some v) as [k Hk].
  { destruct H as [H|[H|H]]; [by exists KLiab|by exists KColl|by exists KSup]. }
  split; [by eapply (gd_pos _ G)|]. pose proof (gd_idx _ G _ _ _ _ Hk) as Hb.
  destruct (lookup_lt_is_Some_2 (reserve_list w a) (Z.to_nat i)) as [r Hx]; [unfold reserve_list; lia|].
  exists r. split; [lia|done].
Qed.
(** consequently, a user with a non-empty liability map owes something *)
Theorem C02_liabilities_mean_debt : forall w a u,
  reachable w -> po_liab (positions w a u) <> ∅ ->
  exists (i : nat) r d, reserve_list w a !! i = Some r /\ reserve w a r = Some d /\
    0 < amount_at (po_liab (positions w a u)) (Z.of_nat i) /\ 0 < rd_d_supply d.
Proof.
  intros w a u Hr Hne. apply map_choose in Hne as (i & v & Hv).
  destruct (C02_positions_positive w a u i v Hr (or_introl Hv)) as (Hp & r & Hi & Hl).
  pose proof (init_of_list _ _ _ _ Hr Hl) as G.
  destruct (C01_supplies_are_sums w a _ r Hr Hl) as (d & Hd & Hs & _).
  exists (Z.to_nat i), r, d. split; [done|]. split; [done|]. rewrite Z2Nat.id in * by done.
  assert (amount_at (po_liab (positions w a u)) i = v) as Hav by (unfold amount_at; by rewrite Hv).
  split; [lia|]. pose proof (total_ge KLiab (pool w a) u i (gd_pos _ G)) as Ht.
  unfold all_users in Hs. unfold total_k in Ht. simpl in Ht. unfold get_liab, getz in Ht.
  unfold positions in Hav. unfold amount_at in *. rewrite Hav in Ht. lia.
Qed.

(** ** Reserve data from one transaction to the next *)
Definition rates_le (d d' : ResData) : Prop := rd_d_rate d <= rd_d_rate d' /\ rd_b_rate d <= rd_b_rate d'.
Lemma move_rates now p l p' r d : good p -> pmove now p l p' -> ps_rdata p !! r = Some d ->
  exists d', ps_rdata p' !! r = Some d' /\ rates_le d d'.
Proof.
  intros G M Hd. unfold rates_le.
  destruct M as [a cfg d0 d' H1 H2 H3|k u a dl cfg d0 n p1 H1 H2 H3 H4 H5 H6 H7|a n d0 H1 H2 H3|k u a cfg d0 cl n p1 H1 H2 H3|u|m]; simpl; eauto with lia.
  - destruct (decide (a = r)) as [->|]; [rewrite lookup_insert|rewrite lookup_insert_ne by done; eauto with lia].
    assert (d0 = d) by congruence. subst d0. exists d'. split; [done|].
    destruct (accrue_spec _ _ _ _ _ (good_rd _ _ _ G Hd) (cw_valid _ (gd_cfg _ G) _ _ H1) (cw_rate _ (gd_cfg _ G)) H3) as (_ & _ & _ & _ & ? & ? & _). done.
  - destruct (decide (a = r)) as [->|]; [rewrite lookup_insert|rewrite lookup_insert_ne by done; eauto with lia].
    assert (d0 = d) by congruence. subst d0. eexists. split; [done|]. destruct k; simpl; lia.
  - destruct (decide (a = r)) as [->|]; [rewrite lookup_insert|rewrite lookup_insert_ne by done; eauto with lia].
    assert (d0 = d) by congruence. subst d0. eexists. split; [done|]. simpl; lia.
  - apply p_emissions_emis in H3. destruct (emis_ecfg _ _ H3) as (_ & -> & _). eauto with lia.
Qed.
Lemma trace_rates now p ls p' r d : good p -> ptrace now p ls p' -> ps_rdata p !! r = Some d ->
  exists d', ps_rdata p' !! r = Some d' /\ rates_le d d'.
Proof.
  intros G T. revert d. induction T as [|p l p1 ls p2 M T IH]; intros d Hd; [unfold rates_le; eauto with lia|].
  destruct (move_rates _ _ _ _ _ _ G M Hd) as (d1 & Hd1 & H1).
  destruct (IH (pmove_good _ _ _ _ G M) _ Hd1) as (d2 & Hd2 & H2). exists d2. split; [done|]. unfold rates_le in *; lia.
Qed.

Lemma step_rates w o out w' a r d : reachable w -> exec w o = Ok (out, w') -> reserve w a r = Some d ->
  exists d', reserve w' a r = Some d' /\ rates_le d d'.
Proof.
  intros Hr H Hd. pose proof (init_of_data _ _ _ _ Hr Hd) as G. unfold reserve in *.
  apply (exec_pool _ _ _ _ a) in H.
  destruct H as [o out w' H _|sg po out px w' Hsg Hty Hp H Hw' _ _|sg admin salt orc rate mp w' -> Hn _ _ H|t u w' H|q w' H].
  - rewrite H. unfold rates_le; eauto with lia.
  - rewrite Hw'. apply p_exec_data in H; [|done|done]. simpl in H.
    destruct H as [(_ & ls & T)|[(b & _ & Hs)|(_ & _ & Hk)]].
    + by eapply trace_rates.
    + destruct Hs as (cfg' & _ & _ & _ & _ & _ & _ & _ & _ & _ & _ & [(Hno & _ & _ & Hrd)|(cfg & d0 & d' & Hc & Hd0 & _ & _ & _ & Hac & m & _ & Hrd)]); rewrite Hrd.
      * destruct (decide (b = r)) as [->|]; [|rewrite lookup_insert_ne by done; unfold rates_le; eauto with lia].
        exfalso. destruct (proj2 (gd_dom _ G r) (ex_intro _ _ Hd)) as [? ?]. congruence.
      * destruct (decide (b = r)) as [->|]; [|rewrite lookup_insert_ne by done; unfold rates_le; eauto with lia].
        rewrite lookup_insert. assert (d0 = d) by congruence. subst d0. eexists. split; [done|].
        destruct (accrue_spec _ _ _ _ _ (good_rd _ _ _ G Hd) (cw_valid _ (gd_cfg _ G) _ _ Hc) (cw_rate _ (gd_cfg _ G)) Hac) as (_ & _ & _ & _ & ? & ? & _). done.
    + destruct Hk as (-> & _). unfold rates_le; eauto with lia.
  - exfalso. unfold pool in G. rewrite Hn in G. apply gd_init in G. discriminate.
  - rewrite H. simpl. unfold rates_le; eauto with lia.
  - rewrite H. simpl. unfold rates_le; eauto with lia.
Qed.

(** ** C04: exchange rates never decrease *)
Theorem C04_rates_never_decrease : forall w l a r d,
  reachable w -> reserve w a r = Some d ->
  exists d', reserve (run w l) a r = Some d' /\
    1000000000 <= rd_b_rate d <= rd_b_rate d' /\ 1000000000 <= rd_d_rate d <= rd_d_rate d'.
Proof.
  intros w l a r d Hr Hd.
  assert (forall l w d, reachable w -> reserve w a r = Some d -> exists d', reserve (run w l) a r = Some d' /\ rates_le d d') as Hrun.
  { clear. induction l as [|o l IH]; simpl; intros w d Hr Hd; [unfold rates_le; eauto with lia|].
    unfold step. destruct (exec w o) as [[out w1]|] eqn:E; [|by apply IH].
    destruct (step_rates _ _ _ _ _ _ _ Hr E Hd) as (d1 & Hd1 & H1).
    destruct (IH _ _ (reachable_step _ _ _ _ Hr E) Hd1) as (d2 & Hd2 & H2). exists d2. split; [done|]. unfold rates_le in *; lia. }
  destruct (Hrun l w d Hr Hd) as (d' & Hd' & Hle). exists d'. split; [done|].
  pose proof (init_of_data _ _ _ _ Hr Hd) as G. destruct (gd_rate _ G _ _ Hd) as (? & ? & _). unfold rates_le in *. vals. lia.
Qed.

(** ** C05: the interest rate modifier stays within [0.1, 10] *)
Theorem C05_ir_mod_range : forall w a r d,
  reachable w -> reserve w a r = Some d -> 100000000 <= rd_ir_mod d <= 10000000000.
Proof. intros w a r d Hr Hd. pose proof (init_of_data _ _ _ _ Hr Hd) as G. by destruct (gd_rate _ G _ _ Hd) as (_ & _ & ?). Qed.

(** ** C08: borrowers are healthy after risk-increasing submits *)

(** request types: 3 withdraw collateral, 4 borrow, 6 fill user liquidation, 7 fill
    bad debt, 9 delete liquidation auction *)
Definition risk_increasing (q : Request) : Prop :=
  rq_type q = 3 \/ rq_type q = 4 \/ rq_type q = 6 \/ rq_type q = 7 \/ rq_type q = 9.
(** the oracle reports no negative price for an asset of the pool *)
Definition prices_nonneg (w : World) (a : Addr) : Prop :=
  forall r, r ∈ reserve_list w a -> 0 <= price_of (pool w a) (w_ext w) r.

Lemma data_rates now p r cfg : good p -> ps_rcfg p !! r = Some cfg ->
  SCALAR_9 <= rd_b_rate (data_at now p r) /\ SCALAR_9 <= rd_d_rate (data_at now p r).
Proof.
  intros G Hc. destruct (proj1 (gd_dom _ G r) (ex_intro _ _ Hc)) as [d Hd]. unfold data_at. rewrite Hc, Hd.
  destruct (gd_rate _ G _ _ Hd) as (H1 & H2 & _).
  destruct (accrue now (pc_bstop_rate (ps_config p)) cfg d) as [d'|] eqn:E; [|done].
  destruct (accrue_spec _ _ _ _ _ (good_rd _ _ _ G Hd) (cw_valid _ (gd_cfg _ G) _ _ Hc) (cw_rate _ (gd_cfg _ G)) E) as (_ & _ & _ & _ & ? & ? & _). lia.
Qed.

Lemma indexed_in k l : forall i (a : Addr), (i, a) ∈ indexed k l -> k <= i /\ l !! Z.to_nat (i - k) = Some a.
Proof.
  revert k. induction l as [|b l IH]; simpl; intros k i a H; [by apply elem_of_nil in H|].
  apply elem_of_cons in H as [[= -> ->]|H]; [rewrite Z.sub_diag; simpl; split; [lia|done]|].
  apply IH in H as [H1 H2]. split; [lia|]. replace (i - k) with (Z.succ (i - (k + 1))) by lia.
  rewrite Z2Nat.inj_succ by lia. done.
Qed.

(** with non-negative prices the effective values are non-negative *)
Lemma eff_nonneg now p x pos :
  good p -> (forall k (i : nat) r, ps_list p !! i = Some r -> 0 <= getz (get_k k pos) (Z.of_nat i)) -> (forall r, r ∈ ps_list p -> 0 <= price_of p x r) ->
  (forall (i : nat) r, ps_list p !! i = Some r -> get_liab pos (Z.of_nat i) <> 0 -> 0 < rc_l_factor (cfg_of p r)) ->
  0 <= eff_coll now p x pos /\ 0 <= eff_liab now p x pos.
Proof.
  intros G Hpos Hpr Hlf. unfold eff_coll, eff_liab, over_reserves.
  assert (forall i a, (i, a) ∈ indexed 0 (ps_list p) -> exists cfg, ps_rcfg p !! a = Some cfg /\ cfg_of p a = cfg /\ cfg_bounds cfg /\ 0 <= price_of p x a /\
    SCALAR_9 <= rd_b_rate (data_at now p a) /\ SCALAR_9 <= rd_d_rate (data_at now p a) /\
    (get_liab pos i <> 0 -> 0 < rc_l_factor cfg) /\ (forall k, 0 <= getz (get_k k pos) i)) as Hi.
  { intros i a Hin. apply indexed_in in Hin as [Hi0 Hi]. rewrite Z.sub_0_r in Hi.
    destruct (cw_idx _ (gd_cfg _ G) _ _ Hi) as (cfg & Hc & _). exists cfg. split; [done|].
    assert (cfg_of p a = cfg) as Hcf by (unfold cfg_of; by rewrite Hc). split; [done|].
    split; [by eapply cw_valid; [apply G|]|]. split; [apply Hpr; by eapply elem_of_list_lookup_2|].
    destruct (data_rates now p a cfg G Hc) as [? ?]. split; [done|]. split; [done|].
    specialize (Hlf _ _ Hi). rewrite Z2Nat.id, Hcf in Hlf by done. split; [done|]. intros k. specialize (Hpos k _ _ Hi). by rewrite Z2Nat.id in Hpos. }
  split; apply sumz_nonneg; intros [i a] Hin; simpl; destruct (Hi _ _ Hin) as (cfg & Hc & Hcf & Hb & Hp & R1 & R2 & Hl & Hps);
    pose proof (Hps KColl) as P1; pose proof (Hps KLiab) as P2; simpl in P1, P2; vals.
  - unfold coll_eff1, b_assets. rewrite Hcf. unfold get_coll. destruct Hb as (? & ? & _).
    assert (0 < 10 ^ rc_decimals cfg) by (apply Z.pow_pos_nonneg; lia).
    apply Z.div_pos; [|done]. apply Z.mul_nonneg_nonneg; [done|]. apply Z.div_pos; [|lia]. apply Z.mul_nonneg_nonneg; [|lia].
    apply Z.div_pos; [nia|lia].
  - unfold liab_eff1, d_assets. rewrite Hcf. destruct Hb as (? & ? & ? & _).
    assert (0 < 10 ^ rc_decimals cfg) by (apply Z.pow_pos_nonneg; lia).
    apply cdiv_nonneg; [done|]. apply Z.mul_nonneg_nonneg; [done|].
    destruct (Z.eq_dec (get_liab pos i) 0) as [Hz|Hnz].
    + rewrite Hz. rewrite Z.mul_0_l. change (cdiv 0 1000000000) with 0. change (0 * 10000000) with 0. unfold cdiv. change (- 0) with 0. rewrite Zdiv_0_l. lia.
    + apply cdiv_nonneg; [by apply Hl|]. unfold get_liab in *. pose proof (cdiv_nonneg (getz (po_liab pos) i * rd_d_rate (data_at now p a)) 1000000000 ltac:(lia) ltac:(nia)). lia.
Qed.

Lemma hf_ineq now p x pos min dec :
  0 <= eff_coll now p x pos -> 0 <= eff_liab now p x pos -> 0 <= dec -> o_dec (x_orc x) !! pc_oracle (ps_config p) = Some dec ->
  hf_at_least now p x pos min ->
  eff_liab now p x pos * (10 ^ dec * min / 10000000) <= eff_coll now p x pos * 10 ^ dec.
Proof.
  intros H1 H2 Hd Hdec (dec' & Hdec' & H). assert (dec' = dec) by congruence. subst dec'.
  assert (0 < 10 ^ dec) by (by apply Z.pow_pos_nonneg).
  destruct H as [->|(h & Hf & Hh)]; [nia|].
  destruct (Z.eq_dec (eff_liab now p x pos) 0) as [->|Hnz]; [nia|].
  apply fdiv_floor_ok in Hf as [-> _]; [|lia].
  pose proof (fdiv_spec (eff_coll now p x pos * 10 ^ dec) (eff_liab now p x pos) ltac:(lia)). nia.
Qed.


(** decimals reported by an oracle are unsigned *)
Lemma em_mint_orc x a n x' : em_mint x a n = Ok x' -> x_orc x' = x_orc x.
Proof. unfold em_mint. intros H. mon H. done. Qed.
Lemma em_execute_orc c x b n x' : em_execute_distribute c x b = Ok (n, x') -> x_orc x' = x_orc x.
Proof.
  unfold em_execute_distribute. intros H. apply bind_ok in H as (? & _ & H). apply bind_ok in H as (? & _ & H).
  apply bind_ok in H as (? & _ & H). apply bind_ok in H as (? & E & H). injection H as _ <-. apply em_mint_orc in E. done.
Qed.
Lemma em_drop_orc c x l x' : em_drop c x l = Ok x' -> x_orc x' = x_orc x.
Proof.
  unfold em_drop. intros H. mon H. simpl.
  match goal with E : foldM (fun x p => em_mint x _ _) _ _ = Ok ?y |- _ =>
    eapply (foldM_rel (fun x y => x_orc y = x_orc x)) in E; [exact E|done|intros; congruence|intros; by eapply em_mint_orc] end.
Qed.
Lemma x_exec_orc c x o out x' : x_exec c x o = Ok (out, x') -> x_orc x' = x_orc x.
Proof.
  destruct o; simpl; intros H; unfold ret_unit, ret_z in H; mon H; try done.
  - unfold em_initialize in E. mon E. done.
  - unfold em_distribute in E. mon1 E. by eapply em_execute_orc.
  - unfold em_queue_swap in E. mon E. done.
  - unfold em_cancel_swap in E. mon E. done.
  - unfold em_swap_backstop in E. apply bind_ok in E as (sw & _ & E). apply assert_ok in E as [_ E]. apply assert_ok in E as [_ E].
    apply bind_ok in E as ([n x1] & E1 & E). injection E as <-. by apply em_execute_orc in E1.
  - by eapply em_drop_orc.
  - unfold fa_initialize in E. mon E. done.
  - unfold b_initialize in E. mon E. done.
  - by apply same_b_deposit in E as (_ & _ & ?).
  - by apply same_b_queue in E as (_ & _ & ?).
  - by apply same_b_dequeue in E as (_ & _ & ?).
  - by apply same_b_withdraw in E as (_ & _ & ?).
  - by apply same_b_draw in E as (_ & _ & ?).
  - by apply same_b_donate in E as (_ & _ & ?).
  - unfold b_update_tkn_val in E. mon E. done.
  - unfold b_drop in E. apply assert_ok in E as [_ E]. apply assert_ok in E as [_ E]. apply bind_ok in E as (l & _ & E). by eapply em_drop_orc.
  - by apply same_b_add_reward in E as (_ & _ & ?).
  - by apply same_b_gulp in E as (_ & _ & ?).
  - by apply same_b_gulp_pool in E as (_ & _ & ?).
  - by apply same_b_claim in E as (_ & _ & ?).
Qed.
Lemma reachable_orc w : reachable w -> ty_orc (x_orc (w_ext w)) = true.
Proof.
  revert w. apply reach_inv.
  - intros w (now & seq & t & o & lp & -> & _ & _ & _ & H & _). exact H.
  - intros w o out w' IH H. destruct o; simpl in H.
    + apply assert_ok in H as [_ H]. apply bind_ok in H as ([out1 x] & E & H). injection H as <- <-. simpl.
      apply x_exec_orc in E. by rewrite E.
    + apply exec_opool in H as (_ & _ & _ & px & H & _ & -> & _). apply same_p_exec in H as (_ & _ & H). simpl in H. by rewrite H.
    + mon H. destruct (w_pools w !! _); mon H. simpl. done.
    + mon H. destruct (w_pools w !! _); mon H. done.
    + mon H. done.
    + mon H. done.
    + mon H. done.
    + mon H. done.
    + mon H. done.
    + mon H. done.
Qed.
Lemma reachable_dec w o n : reachable w -> o_dec (x_orc (w_ext w)) !! o = Some n -> 0 <= n.
Proof.
  intros Hr H. apply reachable_orc in Hr. unfold ty_orc in Hr. apply andb_prop in Hr as [Hr _]. rewrite forallb_forall in Hr.
  specialize (Hr (o, n)). apply elem_of_map_to_list, elem_of_list_In, Hr in H. simpl in H. apply in_u32_iff in H. lia.
Qed.

Lemma areq_orc c self from q s ls s' : areq c self from q s ls s' -> same_ext (as_x s) (as_x s').
Proof.
  intros H. destruct H; simpl; try done.
  - match goal with E : b_draw _ _ _ _ _ = Ok _ |- _ => apply same_b_draw in E end. eapply same_trans; [eassumption|].
    match goal with E : _ \/ _ |- _ => destruct E as [(_ & -> & _)|(_ & _ & _ & ->)] end; [done|].
    induction (entries m) as [|e es IH]; simpl; [done|]. eapply same_trans; [exact IH|]. done.
  - match goal with E : b_donate _ _ _ _ _ = Ok _ |- _ => apply same_b_donate in E end. eapply same_trans; [eassumption|]. done.
Qed.
Lemma areqs_orc c self from s qs ls s' : areqs c self from s qs ls s' -> same_ext (as_x s) (as_x s').
Proof. induction 1; [done|]. eapply same_trans; [by eapply areq_orc|done]. Qed.

Lemma values_orc now p x x' pos : x_orc x' = x_orc x ->
  eff_coll now p x' pos = eff_coll now p x pos /\ eff_liab now p x' pos = eff_liab now p x pos.
Proof.
  intros H. unfold eff_coll, eff_liab, over_reserves, coll_eff1, liab_eff1, price_of. by rewrite H.
Qed.

Theorem C08_healthy_after_risk : forall w sg a from spender to qs out w',
  reachable w -> prices_nonneg w a ->
  exec w (OPool sg a (PSubmit from spender to qs)) = Ok (out, w') ->
  (exists q, q ∈ qs /\ risk_increasing q) ->
  po_liab (positions w' a from) <> ∅ ->
  exists dec, o_dec (x_orc (w_ext w')) !! pc_oracle (ps_config (pool w' a)) = Some dec /\
  eff_liab (w_now w') (pool w' a) (w_ext w') (positions w' a from) * (10 ^ dec * 10000100 / 10000000)
    <= eff_coll (w_now w') (pool w' a) (w_ext w') (positions w' a from) * 10 ^ dec.
Proof.
  intros w sg a from spender to qs out w' Hr Hpr H Hq Hl.
  pose proof (reachable_step _ _ _ _ Hr H) as Hr'.
  pose proof (exec_opool _ _ _ _ _ _ H) as (_ & -> & _ & _).
  apply submit_tx in H as (G & G' & Hcfg & _ & _ & _ & _ & _ & _ & ls & x1 & ac & chk & t1 & t2 & pos & -> & -> & Hqs & _ & _ & Hx & _ & Hh); [|done].
  pose proof (areqs_orc _ _ _ _ _ _ _ Hqs) as (_ & _ & Ho). cbn [as_x] in Ho.
  apply areqs_chk in Hqs as [_ Hc]. cbn [as_chk] in Hc. specialize (Hc Hq). subst chk.
  destruct (Hh eq_refl Hl) as (Hhf & _ & Hlf). clear Hh.
  assert (x_orc (w_ext w') = x_orc x1) as Ho' by (rewrite Hx; done).
  destruct (values_orc (w_now w) (pool w' a) x1 (w_ext w') (positions w' a from) Ho') as [-> ->].
  assert (exists dec, o_dec (x_orc (w_ext w')) !! pc_oracle (ps_config (pool w' a)) = Some dec) as [dec Hd].
  { rewrite Ho'. destruct Hhf as (dec & Hd & _). by exists dec. }
  exists dec. split; [exact Hd|].
  pose proof (reachable_dec _ _ _ Hr' Hd) as Hd0. rewrite Ho' in Hd.
  destruct (eff_nonneg (w_now w) (pool w' a) x1 (positions w' a from) G') as [? ?].
  - intros k i r _. by apply pos_ok_getz, G'.
  - intros r Hin. destruct Hcfg as (_ & _ & _ & _ & Hconf & Hlist & _). specialize (Hpr r).
    unfold price_of, reserve_list in *. rewrite Ho, Hconf. apply Hpr. by rewrite <- Hlist.
  - exact Hlf.
  - by apply hf_ineq.
Qed.
