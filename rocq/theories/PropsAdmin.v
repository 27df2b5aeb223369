(** * Administration properties: C28, C29, C30, C31, C32, C35, C52 *)
From Verif Require Import Base Types Token Emitter Factory Backstop PoolReserve PoolUser PoolHealth
  PoolAuction PoolSubmit PoolEmis PoolAdmin World Facts XMove Spec FrameFacts PoolFrame PoolCfg.

(** ** Observers *)
Definition status (w : World) (a : Addr) : Z := pc_status (ps_config (pool w a)).
Definition admin_of (w : World) (a : Addr) : Addr := ps_admin (pool w a).
(** the configuration of [asset] in the pool at [a] *)
Definition res_cfg (w : World) (a asset : Addr) : option ResConfig := ps_rcfg (pool w a) !! asset.

Lemma mem_addr_in a sg : mem_addr a sg = true <-> a ∈ sg.
Proof.
  unfold mem_addr. rewrite existsb_exists. split.
  - intros (b & Hb & Hab). apply Z.eqb_eq in Hab as ->. by apply elem_of_list_In.
  - intros H. exists a. split; [by apply elem_of_list_In|apply Z.eqb_refl].
Qed.

(** ** C28: reserve changes are time-locked, valid and keep identity *)

(** in the history [l] from [w0], a configuration [m] for [asset] was queued in the
    pool at [a] by its admin at time [tq] while the pool had status [s], and no
    cancellation or execution for that asset has succeeded since *)
Definition res_queued (w0 : World) (l : list Op) (a asset : Addr) (m : ResConfig) (tq s : Z) : Prop :=
  exists l1 sg l2, l = l1 ++ OPool sg a (PQueueRes asset m) :: l2 /\
    let wq := run w0 l1 in
    succeeds wq (OPool sg a (PQueueRes asset m)) /\ admin_of wq a ∈ sg /\ w_now wq = tq /\ status wq a = s /\
    forall l3 o l4, l2 = l3 ++ o :: l4 ->
      (exists sg', o = OPool sg' a (PCancelRes asset) \/ o = OPool sg' a (PSetRes asset)) ->
      ~ succeeds (run w0 (l1 ++ OPool sg a (PQueueRes asset m) :: l3)) o.

Lemma res_queued_snoc w0 l a asset m tq s o :
  res_queued w0 l a asset m tq s ->
  ((exists sg', o = OPool sg' a (PCancelRes asset) \/ o = OPool sg' a (PSetRes asset)) -> ~ succeeds (run w0 l) o) ->
  res_queued w0 (l ++ [o]) a asset m tq s.
Proof.
  intros (l1 & sg & l2 & Hl & Hq) Ho. exists l1, sg, (l2 ++ [o]).
  split; [subst; by rewrite <- app_assoc|]. cbv zeta in *.
  destruct Hq as (? & ? & ? & ? & Hq). repeat split; auto.
  intros l3 o' l4 Heq Ho'.
  destruct l4 as [|o4 l4 _] using rev_ind.
  - apply app_inj_tail in Heq as [-> ->]. rewrite <- Hl. auto.
  - rewrite app_comm_cons, app_assoc in Heq. apply app_inj_tail in Heq as [-> ->]. eauto.
Qed.

(** the queue entry of [asset] after a successful transaction is new or old *)
Lemma queue_step w a o out w' asset q :
  pool_step w a o out w' -> ps_queue (pool w' a) !! asset = Some q ->
  (ps_queue (pool w a) !! asset = Some q /\
   ~ (exists sg', o = OPool sg' a (PCancelRes asset) \/ o = OPool sg' a (PSetRes asset))) \/
  (exists sg m, o = OPool sg a (PQueueRes asset m) /\ qr_config q = m /\ admin_of w a ∈ sg /\
     qr_unlock q = if status w a =? 6 then w_now w else w_now w + 604800).
Proof.
  intros H Hq. unfold admin_of, status.
  destruct H as [o out w' H Hno|sg po out px w' Hsg Hty Hp H Hw _ _|sg admin salt orc rate mp w' -> Hn Hr Hm H|t u w' H|r w' H].
  - rewrite H in Hq. left. split; [done|]. intros (sg' & [-> | ->]); by eapply Hno.
  - rewrite Hw in Hq. pose proof H as Hex. apply p_exec_cfg in H as [Hi H]. cbv zeta in *. simpl in *.
    assert (same_cfg (pool w a) (px_p px) -> ps_queue (pool w a) !! asset = Some q) as Hs.
    { intros (_ & _ & _ & _ & _ & _ & _ & Hx & _). by rewrite <- Hx. }
    destruct po; try (left; split; [by auto|]; intros (sg' & [Hx|Hx]); discriminate).
    + left. split; [|intros (sg' & [Hx|Hx]); discriminate]. apply initialize_spec in H as (_ & _ & _ & _ & Hx).
      rewrite Hx in Hq. done.
    + left. split; [|intros (sg' & [Hx|Hx]); discriminate]. unfold p_set_admin in H. mon H. by rewrite <- H in Hq.
    + left. split; [|intros (sg' & [Hx|Hx]); discriminate]. unfold p_update_pool in H. mon H. by rewrite <- H in Hq.
    + unfold p_queue_reserve in H. mon H. rewrite <- H in Hq. simpl in Hq.
      destruct (decide (asset0 = asset)) as [->|Hne].
      * rewrite lookup_insert in Hq. injection Hq as <-. simpl. right. exists sg, cfg. split; [done|]. split; [done|].
        apply need_auth_ok in E. simpl in E. split; [by apply mem_addr_in|].
        destruct (_ =? 6); simpl in E0; [by injection E0 as <-|]. apply u64_ok in E0 as [-> _]. done.
      * rewrite lookup_insert_ne in Hq by done. left. split; [done|]. intros (sg' & [Hx|Hx]); congruence.
    + unfold p_cancel_reserve in H. mon H. rewrite <- H in Hq. simpl in Hq. apply lookup_delete_Some in Hq as [? ?].
      left. split; [done|]. intros (sg' & [Hx|Hx]); congruence.
    + destruct H as (i & H & _). apply set_reserve_spec in H as (q' & _ & _ & _ & _ & Hx). rewrite Hx in Hq. simpl in Hq.
      apply lookup_delete_Some in Hq as [? ?].
      left. split; [done|]. intros (sg' & [Hy|Hy]); congruence.
    + left. split; [|intros (sg' & [Hx|Hx]); discriminate]. destruct H as (s & H & _). unfold p_update_status in H. mon H.
      match goal with Hx : set_config _ _ = px_p px |- _ => by rewrite <- Hx in Hq end.
    + left. split; [|intros (sg' & [Hx|Hx]); discriminate]. apply set_status_range in H as (_ & _ & Hx).
      by rewrite Hx in Hq.
    + left. split; [|intros (sg' & [Hx|Hx]); discriminate]. by rewrite H in Hq.
    + left. split; [|intros (sg' & [Hx|Hx]); discriminate]. apply set_emis_spec in H as (_ & Hx & _); [|done]. by rewrite Hx in Hq.
  - apply initialize_spec in H as (_ & _ & _ & _ & Hx). rewrite Hx in Hq. simpl in Hq. by rewrite lookup_empty in Hq.
  - rewrite H in Hq. left. split; [done|]. intros (sg' & [Hx|Hx]); discriminate.
  - rewrite H in Hq. simpl in Hq. apply lookup_delete_Some in Hq as [_ ?]. left. split; [done|].
    intros (sg' & [Hx|Hx]); discriminate.
Qed.

Lemma queue_history w0 l a asset q :
  initial w0 -> ps_queue (pool (run w0 l) a) !! asset = Some q ->
  exists m tq s, qr_config q = m /\ res_queued w0 l a asset m tq s /\
    qr_unlock q = if s =? 6 then tq else tq + 604800.
Proof.
  intros H0. revert q. induction l as [|o l IH] using rev_ind; intros q Hq.
  { destruct H0 as (? & ? & ? & ? & ? & -> & _). unfold pool in Hq. simpl in Hq. rewrite lookup_empty in Hq.
    simpl in Hq. by rewrite lookup_empty in Hq. }
  rewrite run_snoc in Hq. unfold step in Hq.
  destruct (exec (run w0 l) o) as [[out w']|e] eqn:E.
  - pose proof E as E'. apply (exec_pool _ _ _ _ a) in E. eapply queue_step in E as [[Hold Hno]|(sg & m & Ho & Hm & Ha & Hu)]; [| |exact Hq]; [|subst o].
    + destruct (IH q Hold) as (m & tq & s & ? & ? & ?). exists m, tq, s. split; [done|]. split; [|done].
      apply res_queued_snoc; [done|]. intros Hx. by apply Hno in Hx.
    + exists m, (w_now (run w0 l)), (status (run w0 l) a). split; [done|]. split; [|done].
      exists l, sg, []. split; [done|]. cbv zeta. split; [eexists _, _; exact E'|]. repeat split; auto.
      intros l3 o l4 Hl. by destruct l3.
  - destruct (IH q Hq) as (m & tq & s & ? & ? & ?). exists m, tq, s. split; [done|]. split; [|done].
    apply res_queued_snoc; [done|]. intros _ (? & ? & ?). congruence.
Qed.

(** how the configuration of an asset can change in one transaction *)
Lemma rcfg_step w a o out w' asset :
  pool_step w a o out w' -> res_cfg w' a asset <> res_cfg w a asset ->
  exists sg q i, o = OPool sg a (PSetRes asset) /\ out = OutZ i /\ ps_queue (pool w a) !! asset = Some q /\
    qr_unlock q <= w_now w /\ res_cfg w' a asset = Some (qr_config q <| rc_index := i |>) /\
    match res_cfg w a asset with
    | Some old => i = rc_index old /\ rc_decimals old = rc_decimals (qr_config q)
    | None => i = Z.of_nat (length (ps_list (pool w a)))
    end.
Proof.
  unfold res_cfg. intros H Hne.
  destruct H as [o out w' H Hno|sg po out px w' Hsg Hty Hp H Hw _ _|sg admin salt orc rate mp w' -> Hn Hr Hm H|t u w' H|r w' H].
  - by rewrite H in Hne.
  - rewrite Hw in Hne |- *. clear Hw. apply p_exec_cfg in H as [Hi H]. cbv zeta in *. simpl in *.
    destruct px as [p' x']. simpl in *.
    assert (same_cfg (pool w a) p' -> False) as Hs.
    { intros (_ & _ & _ & _ & _ & _ & Hx & _). by rewrite Hx in Hne. }
    destruct po; try (exfalso; by auto).
    + apply initialize_spec in H as (_ & _ & _ & _ & ->). by destruct Hne.
    + unfold p_set_admin in H. mon H. by destruct Hne.
    + unfold p_update_pool in H. mon H. by destruct Hne.
    + unfold p_queue_reserve in H. mon H. by destruct Hne.
    + unfold p_cancel_reserve in H. mon H. by destruct Hne.
    + destruct H as (i & H & ->). apply set_reserve_spec in H as (q & Hq & Hu & Hc & Hr & Hp'). cbv zeta in *.
      rewrite Hr in Hne |- *. destruct (decide (asset0 = asset)) as [->|Hx].
      * exists sg, q, i. rewrite lookup_insert. split; [done|]. split; [done|]. split; [done|]. split; [done|]. split; [done|].
        destruct (ps_rcfg (pool w a) !! asset); destruct Hc as (-> & ? & _); done.
      * by rewrite lookup_insert_ne in Hne.
    + destruct H as (s & H & _). unfold p_update_status in H. mon H. by destruct Hne.
    + apply set_status_range in H as (_ & _ & ->). by destruct Hne.
    + rewrite H in Hne. by destruct Hne.
    + apply set_emis_spec in H as (_ & Hx & _); [|done]. rewrite Hx in Hne. by destruct Hne.
  - exfalso. apply Hne. unfold pool at 2. rewrite Hn. apply initialize_spec in H as (_ & _ & _ & _ & ->). done.
  - rewrite H in Hne. by destruct Hne.
  - rewrite H in Hne. by destruct Hne.
Qed.

(** C28 (time lock).  In any history, when a transaction changes the configuration
    of a reserve, it is a set_reserve call, and what takes effect is a configuration
    that the then admin queued at least seven days earlier, or while the pool was in
    setup (status 6), and that has been neither cancelled nor applied since. *)
Theorem C28_reserve_changes_timelocked : forall w0 l o out w' a asset,
  initial w0 -> let w := run w0 l in
  exec w o = Ok (out, w') -> res_cfg w' a asset <> res_cfg w a asset ->
  (exists sg, o = OPool sg a (PSetRes asset)) /\
  exists m tq s i, res_queued w0 l a asset m tq s /\ (tq + 7 * 86400 <= w_now w \/ s = 6 /\ tq <= w_now w) /\
    res_cfg w' a asset = Some (m <| rc_index := i |>).
Proof.
  intros w0 l o out w' a asset H0 w H Hne. apply (exec_pool _ _ _ _ a) in H.
  destruct (rcfg_step _ _ _ _ _ _ H Hne) as (sg & q & i & -> & -> & Hq & Hu & Hc & _).
  split; [by eexists|]. destruct (queue_history w0 l a asset q H0 Hq) as (m & tq & s & <- & Hh & He).
  exists (qr_config q), tq, s, i. split; [done|]. split; [|done].
  rewrite He in Hu. destruct (s =? 6) eqn:Es; [right; split; [lia|done]|left; lia].
Qed.

(** C28 (validity): every configuration in force satisfies the documented bounds *)
Theorem C28_configs_valid : forall w a asset cfg,
  reachable w -> res_cfg w a asset = Some cfg -> cfg_bounds cfg.
Proof. intros w a asset cfg Hr Hc. eapply cw_valid; [by eapply reachable_cfg_wf|exact Hc]. Qed.

#[export] Instance ResConfig_eq_dec : EqDecision ResConfig.
Proof. solve_decision. Defined.

(** C28 (identity): a reserve is never removed and its index and decimals never change *)
Theorem C28_index_and_decimals_fixed : forall w l a asset cfg,
  res_cfg w a asset = Some cfg ->
  exists cfg', res_cfg (run w l) a asset = Some cfg' /\
    rc_index cfg' = rc_index cfg /\ rc_decimals cfg' = rc_decimals cfg.
Proof.
  intros w l a asset cfg Hc.
  apply (run_inv (fun w' => exists cfg', res_cfg w' a asset = Some cfg' /\ rc_index cfg' = rc_index cfg /\ rc_decimals cfg' = rc_decimals cfg)); [eauto|].
  intros w1 o out w2 (cfg' & Hc' & Hi & Hd) H.
  destruct (decide (res_cfg w2 a asset = res_cfg w1 a asset)) as [->|Hne]; [eauto|].
  apply (exec_pool _ _ _ _ a) in H. destruct (rcfg_step _ _ _ _ _ _ H Hne) as (sg & q & i & _ & _ & _ & _ & Hr & Hx).
  rewrite Hc' in Hx. destruct Hx as [-> Hx]. eexists; split; [exact Hr|]. simpl. split; [done|]. congruence.
Qed.

(** ** C29: the reserve list *)
Theorem C29_reserve_list_bijection : forall w a, reachable w ->
  let l := ps_list (pool w a) in
  (length l <= 32)%nat /\ NoDup l /\
  (forall i asset, l !! i = Some asset <-> exists cfg, res_cfg w a asset = Some cfg /\ rc_index cfg = Z.of_nat i).
Proof.
  intros w a Hr l. pose proof (reachable_cfg_wf w a Hr) as W. split; [apply W|]. split; [apply W|].
  intros i asset. split; [apply W|]. intros (cfg & Hc & Hi).
  pose proof (cw_list _ W _ _ Hc) as Hin. apply elem_of_list_lookup in Hin as (j & Hj).
  destruct (cw_idx _ W _ _ Hj) as (cfg' & Hc' & Hj'). unfold res_cfg in Hc. rewrite Hc in Hc'. injection Hc' as <-.
  replace i with j by lia. done.
Qed.

Lemma list_step w a o out w' : pool_step w a o out w' -> ps_list (pool w a) `prefix_of` ps_list (pool w' a).
Proof.
  intros H. destruct H as [o out w' H Hno|sg po out px w' Hsg Hty Hp H Hw _ _|sg admin salt orc rate mp w' -> Hn Hr Hm H|t u w' H|r w' H].
  - by rewrite H.
  - rewrite Hw. clear Hw. apply p_exec_cfg in H as [Hi H]. cbv zeta in *. simpl in *.
    destruct px as [p' x']. simpl in *.
    assert (same_cfg (pool w a) p' -> ps_list (pool w a) `prefix_of` ps_list p') as Hs.
    { by intros (_ & _ & _ & _ & _ & -> & _). }
    destruct po; try (by auto).
    + by apply initialize_spec in H as (_ & _ & _ & _ & ->).
    + unfold p_set_admin in H. by mon H.
    + unfold p_update_pool in H. by mon H.
    + unfold p_queue_reserve in H. by mon H.
    + unfold p_cancel_reserve in H. by mon H.
    + destruct H as (i & H & _). apply set_reserve_spec in H as (q & _ & _ & Hc & _ & _). cbv zeta in Hc.
      destruct (ps_rcfg _ !! _); destruct Hc as (_ & _ & ->); [done|by eexists].
    + destruct H as (s & H & _). unfold p_update_status in H. by mon H.
    + by apply set_status_range in H as (_ & _ & ->).
    + by rewrite H.
    + by apply set_emis_spec in H as (_ & -> & _).
  - unfold pool at 1. rewrite Hn. simpl. apply prefix_nil.
  - by rewrite H.
  - by rewrite H.
Qed.

(** the list only grows at its end: no reserve is removed or moved *)
Theorem C29_list_only_grows : forall w l a, ps_list (pool w a) `prefix_of` ps_list (pool (run w l) a).
Proof.
  intros w l a. apply (run_inv (fun w' => ps_list (pool w a) `prefix_of` ps_list (pool w' a))); [done|].
  intros w1 o out w2 Hp H. etrans; [exact Hp|]. eapply list_step, exec_pool, H.
Qed.

(** ** C31: saturating threshold arithmetic *)

(** the product constant in unbounded arithmetic: (BLND)^4 * USDC in whole tokens *)
Definition exact_product (blnd usdc : Z) : Z := Z.quot blnd 10000000 ^ 4 * Z.quot usdc 10000000.
Definition THRESHOLD : Z := 320000000000000000000000000.

Definition clamp (z : Z) : Z := if i128_max <? z then i128_max else if z <? i128_min then i128_min else z.
Lemma sat_clamp a b : sat_mul a b = clamp (a * b). Proof. done. Qed.
Lemma clamp_nonneg a b : 0 <= a -> 0 <= b -> clamp (clamp a * b) = clamp (a * b).
Proof.
  intros Ha Hb. unfold clamp at 2. destruct (i128_max <? a) eqn:E1; [|by destruct (a <? i128_min) eqn:E2; [vals; lia|]].
  unfold clamp. destruct (b =? 0) eqn:E; [apply Z.eqb_eq in E as ->; by rewrite !Z.mul_0_r|].
  assert (i128_max <= i128_max * b) by (vals; nia). assert (i128_max < a * b) by (vals; nia).
  rewrite (proj2 (Z.ltb_lt _ _) H0). destruct (i128_max <? i128_max * b) eqn:E3; [done|].
  assert (i128_max * b = i128_max) as -> by (vals; lia). done.
Qed.
Lemma fourth_power b : sat_mul (sat_mul (sat_mul b b) b) b = clamp (b ^ 4).
Proof.
  replace (b ^ 4) with (b * b * b * b) by ring. rewrite !sat_clamp.
  destruct (Z_le_gt_dec 0 b) as [Hb|Hb].
  - rewrite (clamp_nonneg (b * b)) by nia. by rewrite clamp_nonneg by nia.
  - unfold clamp at 3. assert (i128_min < 0 < i128_max) by (vals; lia).
    replace (b * b <? i128_min) with false by (symmetry; apply Z.ltb_ge; nia).
    destruct (i128_max <? b * b) eqn:E1.
    + assert (b <= -2) by (vals; nia).
      assert (clamp (i128_max * b) = i128_min) as ->.
      { unfold clamp. replace (i128_max <? i128_max * b) with false by (symmetry; apply Z.ltb_ge; nia).
        replace (i128_max * b <? i128_min) with true by (symmetry; apply Z.ltb_lt; vals; nia). done. }
      unfold clamp. replace (i128_max <? i128_min * b) with true by (symmetry; apply Z.ltb_lt; vals; nia).
      assert (i128_max * 1 < b * b * (b * b)) by (apply Z.mul_lt_mono_nonneg; vals; nia).
      replace (i128_max <? b * b * b * b) with true by (symmetry; apply Z.ltb_lt; nia). done.
    + unfold clamp at 2. replace (i128_max <? b * b * b) with false by (symmetry; apply Z.ltb_ge; nia).
      destruct (b * b * b <? i128_min) eqn:E2; [|done].
      unfold clamp. replace (i128_max <? i128_min * b) with true by (symmetry; apply Z.ltb_lt; vals; nia).
      replace (i128_max <? b * b * b * b) with true by (symmetry; apply Z.ltb_lt; vals; nia). done.
Qed.
Lemma product_clamp bl us : 0 <= us -> sat_mul (sat_mul (sat_mul (sat_mul bl bl) bl) bl) us = clamp (bl ^ 4 * us).
Proof. intros Hu. rewrite fourth_power, sat_clamp. apply clamp_nonneg; [nia|done]. Qed.
Lemma product_neg bl us : us < 0 -> sat_mul (sat_mul (sat_mul (sat_mul bl bl) bl) bl) us <= 0 /\ bl ^ 4 * us <= 0.
Proof.
  intros Hu. rewrite fourth_power, sat_clamp. assert (0 <= bl ^ 4) by nia. split; [|nia].
  assert (0 <= clamp (bl ^ 4)). { unfold clamp. repeat (case_match; [vals; lia|]). done. }
  unfold clamp at 1. assert (clamp (bl ^ 4) * us <= 0) by nia. repeat case_match; vals; lia.
Qed.

(** C31: for every amount of BLND and USDC, the saturating computation of the
    backstop and the one of the pool decide exactly as unbounded arithmetic does,
    hence agree *)
Theorem C31_threshold_exact : forall d,
  (above_threshold d = true <-> THRESHOLD <= exact_product (pd_blnd d) (pd_usdc d)) /\
  (10000000 <= threshold d <-> THRESHOLD <= exact_product (pd_blnd d) (pd_usdc d)).
Proof.
  intros d. unfold above_threshold, threshold, exact_product, THRESHOLD.
  set (bl := Z.quot (pd_blnd d) SCALAR_7). set (us := Z.quot (pd_usdc d) SCALAR_7).
  change (pd_blnd d ÷ 10000000) with bl. change (pd_usdc d ÷ 10000000) with us. clearbody bl us.
  destruct (Z_lt_le_dec us 0) as [Hu|Hu].
  - pose proof (product_neg bl us Hu) as [H1 H2]. split; [rewrite Z.leb_le; lia|].
    set (s := sat_mul _ us) in *. clearbody s. rewrite sat_clamp.
    assert (clamp (s * SCALAR_7) <= 0).
    { unfold clamp. assert (s * SCALAR_7 <= 0) by (vals; nia). repeat case_match; vals; lia. }
    split; [|lia]. intros Hq. exfalso.
    assert (clamp (s * SCALAR_7) ÷ 320000000000000000000000000 <= 0).
    { rewrite <- (Z.quot_0_l 320000000000000000000000000) by lia. apply Z.quot_le_mono; lia. }
    lia.
  - rewrite product_clamp by done. assert (0 <= bl ^ 4 * us) by nia.
    set (e := bl ^ 4 * us) in *. clearbody e. split.
    + rewrite Z.leb_le. unfold clamp. repeat case_match; vals; lia.
    + rewrite sat_clamp, clamp_nonneg by (vals; lia). unfold clamp.
      assert (0 <= e * SCALAR_7) by (vals; lia).
      destruct (i128_max <? e * SCALAR_7) eqn:E1.
      * rewrite i128_max_val at 1. vals. split; [lia|]. intros _. vm_compute. discriminate.
      * replace (e * SCALAR_7 <? i128_min) with false by (symmetry; apply Z.ltb_ge; vals; lia).
        rewrite Z.quot_div_nonneg by lia. rewrite div_le_iff by lia. vals. lia.
Qed.

(** ** C30: the pool status follows the backstop *)

(** the state of the pool's backstop, from the backstop's records of this pool and
    its recorded LP token value: [q] is the share of the deposits queued for
    withdrawal (7 decimals, rounded up), [met] says the threshold is met *)
Definition backstop_level (w : World) (a : Addr) (q : Z) (met : Prop) : Prop :=
  let b := get_pb (w_ext w) a in
  q = (if 0 <? pb_shares b then cdiv (pb_q4w b * 10000000) (pb_shares b) else 0) /\
  exists vb vu, bs_lpval (x_bs (w_ext w)) = Some (vb, vu) /\
    met = (THRESHOLD <= exact_product (pb_tokens b * vb / 10000000) (pb_tokens b * vu / 10000000)).

Lemma pool_data_level w a d :
  pool_data (w_ext w) a = Ok d ->
  backstop_level w a (pd_q4w_pct d) (THRESHOLD <= exact_product (pd_blnd d) (pd_usdc d)).
Proof.
  unfold pool_data, backstop_level. intros H. mon H. cbv zeta. simpl.
  destruct (bs_lpval _) as [[vb vu]|]; [|discriminate]. injection E0 as <-.
  apply fmul_floor_ok in E1 as [-> _]; [|vals; lia]. apply fmul_floor_ok in E2 as [-> _]; [|vals; lia]. simpl. vals.
  split; [|eauto].
  destruct (0 <? _) eqn:E3; [|by injection E as ->]. apply fdiv_ceil_ok in E as [-> _]; [done|lia].
Qed.

Lemma status_lookup w w' a p x : w' = w <| w_pools := <[a := p]> (w_pools w) |> <| w_ext := x |> -> pool w' a = p.
Proof. intros ->. unfold pool. simpl. by rewrite lookup_insert. Qed.

Lemma call_pool_data_ok p x self d : call_pool_data p x self = Ok d -> pool_data x self = Ok d.
Proof. unfold call_pool_data, to_backstop. destruct (_ =? _); [done|discriminate]. Qed.

Lemma threshold_met d : negb (threshold d <? SCALAR_7) = true <-> THRESHOLD <= exact_product (pd_blnd d) (pd_usdc d).
Proof. rewrite <- (proj2 (C31_threshold_exact d)), negb_true_iff, Z.ltb_ge. done. Qed.

(** C30: what a successful update_status does, for every backstop level.
    0 admin active, 1 active, 2 admin on-ice, 3 on-ice, 4 admin frozen, 5 frozen, 6 setup *)
Theorem C30_update_status : forall w sg a out w',
  reachable w -> exec w (OPool sg a PUpdateStatus) = Ok (out, w') ->
  exists q met, backstop_level w a q met /\ out = OutZ (status w' a) /\
    status w a <> 6 /\ status w a <> 4 /\
    (status w a = 2 -> status w' a = if 7500000 <=? q then 5 else 2) /\
    (status w a = 0 -> (status w' a = 3 /\ (~ met \/ 5000000 <= q)) \/ (status w' a = 0 /\ met /\ q < 5000000)) /\
    (status w a = 1 \/ status w a = 3 \/ status w a = 5 ->
      (status w' a = 5 /\ 6000000 <= q) \/
      (status w' a = 3 /\ q < 6000000 /\ (3000000 <= q \/ ~ met)) \/
      (status w' a = 1 /\ q < 3000000 /\ met)).
Proof.
  intros w sg a out w' Hr H. pose proof (reachable_cfg_wf w a Hr) as W.
  apply (exec_pool _ _ _ _ a) in H. inversion H as [? ? ? _ Hno|? ? ? px ? _ _ Hp Hx Hw _ _| | |]; subst.
  { exfalso. by eapply Hno. }
  clear H. apply p_exec_cfg in Hx as [Hi (s & Hx & ->)]. simpl in Hx, Hi. unfold status. rewrite Hw. clear Hw.
  destruct px as [p' x']. simpl in *. unfold p_update_status in Hx. mon Hx. apply call_pool_data_ok, pool_data_level in E.
  pose proof (threshold_met d) as Hm. set (met := negb _) in *. clearbody met.
  exists (pd_q4w_pct d), (THRESHOLD <= exact_product (pd_blnd d) (pd_usdc d)).
  simpl.
  split; [done|]. split; [done|]. pose proof (cw_status _ W Hi) as Hs.
  set (st := pc_status (ps_config (pool w a))) in *. clearbody st.
  set (mp := THRESHOLD <= _) in *. set (q := pd_q4w_pct d) in *. clearbody mp q.
  assert (st = 0 \/ st = 1 \/ st = 2 \/ st = 3 \/ st = 4 \/ st = 5 \/ st = 6) as Hc by lia.
  assert (met = true \/ met = false) as Hmet by (destruct met; auto).
  destruct Hc as [-> | [-> | [-> | [-> | [-> | [-> | ->]]]]]]; simpl in E0; try discriminate; injection E0 as <-;
    (split; [lia|]); (split; [lia|]); (split; [intros; try lia; done|]); split; intros Hst; try lia;
    destruct Hmet as [-> | ->]; simpl;
    repeat match goal with |- context [if ?b then _ else _] => destruct b eqn:? end; simpl in *;
    repeat match goal with H : (_ || _) = true |- _ => apply orb_prop in H as [?|?] end;
    repeat match goal with H : (_ || _) = false |- _ => apply orb_false_iff in H as [? ?] end; simpl in *;
    try discriminate;
    try (assert (mp) by (by apply Hm)); try (assert (~ mp) by (intros ?; by apply Hm in H));
    intuition lia.
Qed.

(** C30: what a successful set_status does *)
Theorem C30_set_status : forall w sg a s out w',
  exec w (OPool sg a (PSetStatus s)) = Ok (out, w') ->
  exists q met, backstop_level w a q met /\ admin_of w a ∈ sg /\ status w' a = s /\
    (s = 0 /\ met /\ q < 5000000 \/ (s = 2 \/ s = 3) /\ q < 7500000 \/ s = 4).
Proof.
  intros w sg a s out w' H.
  apply (exec_pool _ _ _ _ a) in H. inversion H as [? ? ? _ Hno|? ? ? px ? _ _ Hp Hx Hw _ _| | |]; subst.
  { exfalso. by eapply Hno. }
  clear H. apply p_exec_cfg in Hx as [Hi Hx]. simpl in Hx, Hi. unfold status, admin_of. rewrite Hw.
  pose proof Hx as Hy. apply set_status_range in Hy as (Ha & _ & ->). simpl in Ha. apply mem_addr_in in Ha.
  unfold p_set_status in Hx. mon1 Hx. mon1 Hx. apply call_pool_data_ok, pool_data_level in E0.
  pose proof (threshold_met d) as Hm.
  exists (pd_q4w_pct d), (THRESHOLD <= exact_product (pd_blnd d) (pd_usdc d)). split; [done|]. split; [done|]. split; [done|].
  destruct s as [|s|s]; try discriminate; repeat (destruct s; try discriminate); mon Hx;
    try (apply negb_true_iff, orb_false_iff in G as [G1 G2]); try (rewrite <- Hm); auto.
  - left. split; [done|]. split; [by rewrite G1|lia].
  - right. left. split; [auto|lia].
  - right. left. split; [auto|lia].
Qed.

Lemma status_step w a o out w' :
  pool_step w a o out w' -> status w' a <> status w a ->
  (exists sg, o = OPool sg a PUpdateStatus /\ ps_init (pool w a) = true) \/
  (exists sg s, o = OPool sg a (PSetStatus s)) \/ ps_init (pool w a) = false.
Proof.
  unfold status. intros H Hne. destruct H as [o out w' H Hno|sg po out px w' Hsg Hty Hp H Hw _ _|sg admin salt orc rate mp w' -> Hn Hr Hm H|t u w' H|r w' H].
  - by rewrite H in Hne.
  - rewrite Hw in Hne. clear Hw. apply p_exec_cfg in H as [Hi H]. cbv zeta in *. simpl in *.
    destruct px as [p' x']. simpl in *.
    assert (same_cfg (pool w a) p' -> False) as Hs.
    { intros (_ & _ & _ & _ & Hx & _). by rewrite Hx in Hne. }
    destruct po; try (exfalso; by auto).
    + right. right. by apply initialize_spec in H as (_ & ? & _).
    + exfalso; apply Hne. unfold p_set_admin in H. by mon H.
    + exfalso; apply Hne. unfold p_update_pool in H. by mon H.
    + exfalso; apply Hne. unfold p_queue_reserve in H. by mon H.
    + exfalso; apply Hne. unfold p_cancel_reserve in H. by mon H.
    + exfalso; apply Hne. destruct H as (i & H & _). by apply set_reserve_spec in H as (q & _ & _ & _ & _ & ->).
    + left. by eexists.
    + right. left. eauto.
    + exfalso; apply Hne. by rewrite H.
    + exfalso; apply Hne. by apply set_emis_spec in H as (_ & -> & _).
  - right. right. unfold pool. by rewrite Hn.
  - by rewrite H in Hne.
  - by rewrite H in Hne.
Qed.

(** C30: the status of an initialized pool changes only by these two calls *)
Theorem C30_status_changes_only_by_status_calls : forall w o out w' a,
  exec w o = Ok (out, w') -> ps_init (pool w a) = true -> status w' a <> status w a ->
  exists sg, o = OPool sg a PUpdateStatus \/ exists s, o = OPool sg a (PSetStatus s).
Proof.
  intros w o out w' a H Hi Hne. apply (exec_pool _ _ _ _ a) in H. apply status_step in H; [|done].
  destruct H as [(sg & ? & _)|[(sg & s & ?)|?]]; [eauto|eauto|congruence].
Qed.

Lemma init_step w a o out w' : pool_step w a o out w' -> ps_init (pool w a) = true -> ps_init (pool w' a) = true.
Proof.
  intros H Hi. destruct H as [o out w' H Hno|sg po out px w' Hsg Hty Hp H Hw _ _|sg admin salt orc rate mp w' -> Hn Hr Hm H|t u w' H|r w' H].
  - by rewrite H.
  - rewrite Hw. clear Hw. apply p_exec_cfg in H as [_ H]. cbv zeta in *. simpl in *.
    destruct px as [p' x']. simpl in *.
    assert (same_cfg (pool w a) p' -> ps_init p' = true) as Hs.
    { by intros (-> & _). }
    destruct po; try (by auto).
    + by apply initialize_spec in H as (_ & _ & _ & _ & ->).
    + unfold p_set_admin in H. by mon H.
    + unfold p_update_pool in H. by mon H.
    + unfold p_queue_reserve in H. by mon H.
    + unfold p_cancel_reserve in H. by mon H.
    + destruct H as (i & H & _). by apply set_reserve_spec in H as (q & _ & _ & _ & _ & ->).
    + destruct H as (s & H & _). unfold p_update_status in H. by mon H.
    + by apply set_status_range in H as (_ & _ & ->).
    + by rewrite H.
    + by apply set_emis_spec in H as (_ & -> & _).
  - by apply initialize_spec in H as (_ & _ & _ & _ & ->).
  - by rewrite H.
  - by rewrite H.
Qed.

(** C30: a pool that left setup never returns to it *)
Theorem C30_never_back_to_setup : forall w l a,
  reachable w -> ps_init (pool w a) = true -> status w a <> 6 -> status (run w l) a <> 6.
Proof.
  intros w l a Hr Hi Hs.
  apply (run_inv (fun w' => reachable w' /\ ps_init (pool w' a) = true /\ status w' a <> 6)); [done|].
  intros w1 o out w2 (Hr1 & Hi1 & Hs1) H. split; [by eapply reachable_step|].
  pose proof (exec_pool _ _ _ _ a H) as Hp. split; [by eapply init_step|].
  destruct (decide (status w2 a = status w1 a)) as [->|Hne]; [done|].
  apply status_step in Hp as [(sg & -> & _)|[(sg & s & ->)|?]]; [| |congruence|done].
  - apply C30_update_status in H as (q & met & _ & _ & N6 & N4 & H2 & H0 & H1); [|done].
    pose proof (cw_status _ (reachable_cfg_wf w1 a Hr1) Hi1) as Hrg. fold (status w1 a) in Hrg.
    destruct (decide (status w1 a = 2)) as [E2|]; [rewrite (H2 E2); destruct (_ <=? _); lia|].
    destruct (decide (status w1 a = 0)) as [E0|]; [specialize (H0 E0); lia|].
    destruct (decide (status w1 a = 4)) as [E4|]; [|specialize (H1 ltac:(lia)); lia].
    lia.
  - apply C30_set_status in H as (q & met & _ & _ & -> & H). lia.
Qed.

(** ** C32: administration needs the admin's signature *)

(** the settings under the admin's control *)
Theorem C32_admin_settings : forall w o out w' a,
  exec w o = Ok (out, w') -> ps_init (pool w a) = true ->
  let p := pool w a in let p' := pool w' a in
  (ps_admin p' <> ps_admin p -> exists sg po, o = OPool sg a po /\ ps_admin p ∈ sg /\ ps_admin p' ∈ sg) /\
  (pc_bstop_rate (ps_config p') <> pc_bstop_rate (ps_config p) \/
   pc_max_positions (ps_config p') <> pc_max_positions (ps_config p) \/
   ps_pemis p' <> ps_pemis p -> exists sg po, o = OPool sg a po /\ ps_admin p ∈ sg) /\
  (forall asset, ps_queue p' !! asset <> ps_queue p !! asset ->
     (exists sg po, o = OPool sg a po /\ ps_admin p ∈ sg) \/
     (* applied after its delay, or expired *)
     ps_queue p' !! asset = None /\ ((exists sg, o = OPool sg a (PSetRes asset)) \/ o = OExpireQueue a asset)) /\
  ps_backstop p' = ps_backstop p /\ ps_blnd p' = ps_blnd p /\ pc_oracle (ps_config p') = pc_oracle (ps_config p).
Proof.
  intros w o out w' a H Hi p p'. apply (exec_pool _ _ _ _ a) in H.
  assert (p' = p -> (ps_admin p' <> ps_admin p -> exists sg po, o = OPool sg a po /\ ps_admin p ∈ sg /\ ps_admin p' ∈ sg) /\
    (pc_bstop_rate (ps_config p') <> pc_bstop_rate (ps_config p) \/ pc_max_positions (ps_config p') <> pc_max_positions (ps_config p) \/
    ps_pemis p' <> ps_pemis p -> exists sg po, o = OPool sg a po /\ ps_admin p ∈ sg) /\
    (forall asset, ps_queue p' !! asset <> ps_queue p !! asset ->
     (exists sg po, o = OPool sg a po /\ ps_admin p ∈ sg) \/
     ps_queue p' !! asset = None /\ ((exists sg, o = OPool sg a (PSetRes asset)) \/ o = OExpireQueue a asset)) /\
    ps_backstop p' = ps_backstop p /\ ps_blnd p' = ps_blnd p /\ pc_oracle (ps_config p') = pc_oracle (ps_config p)) as Htriv.
  { intros ->. split; [done|]. split; [intuition congruence|]. done. }
  subst p p'.
  destruct H as [o out w' H Hno|sg po out px w' Hsg Hty Hp H Hw _ _|sg admin salt orc rate mp w' -> Hn Hr Hm H|t u w' H|r w' H].
  - by apply Htriv.
  - rewrite Hw in Htriv |- *. clear Hw. apply p_exec_cfg in H as [_ H]. cbv zeta in *. simpl in *.
    destruct px as [p' x']. simpl in *. set (p := pool w a) in *. clearbody p.
    assert (same_cfg p p' -> (ps_admin p' <> ps_admin p -> exists sg0 po0, OPool sg a po = OPool sg0 a po0 /\ ps_admin p ∈ sg0 /\ ps_admin p' ∈ sg0) /\
    (pc_bstop_rate (ps_config p') <> pc_bstop_rate (ps_config p) \/ pc_max_positions (ps_config p') <> pc_max_positions (ps_config p) \/
    ps_pemis p' <> ps_pemis p -> exists sg0 po0, OPool sg a po = OPool sg0 a po0 /\ ps_admin p ∈ sg0) /\
    (forall asset, ps_queue p' !! asset <> ps_queue p !! asset ->
     (exists sg0 po0, OPool sg a po = OPool sg0 a po0 /\ ps_admin p ∈ sg0) \/
     ps_queue p' !! asset = None /\ ((exists sg0, OPool sg a po = OPool sg0 a (PSetRes asset)) \/ OPool sg a po = OExpireQueue a asset)) /\
    ps_backstop p' = ps_backstop p /\ ps_blnd p' = ps_blnd p /\ pc_oracle (ps_config p') = pc_oracle (ps_config p)) as Hs.
    { intros (H1 & H2 & H3 & H4 & H5 & H6 & H7 & H8 & H9 & H10). rewrite H2, H3, H4, H5, H8, H10.
      split; [done|]. split; [intuition congruence|]. done. }
    assert (c_auth (ctx w sg) (ps_admin p) = true -> ps_backstop p' = ps_backstop p -> ps_blnd p' = ps_blnd p ->
      pc_oracle (ps_config p') = pc_oracle (ps_config p) -> (ps_admin p' <> ps_admin p -> ps_admin p' ∈ sg) ->
      (ps_admin p' <> ps_admin p -> exists sg0 po0, OPool sg a po = OPool sg0 a po0 /\ ps_admin p ∈ sg0 /\ ps_admin p' ∈ sg0) /\
    (pc_bstop_rate (ps_config p') <> pc_bstop_rate (ps_config p) \/ pc_max_positions (ps_config p') <> pc_max_positions (ps_config p) \/
    ps_pemis p' <> ps_pemis p -> exists sg0 po0, OPool sg a po = OPool sg0 a po0 /\ ps_admin p ∈ sg0) /\
    (forall asset, ps_queue p' !! asset <> ps_queue p !! asset ->
     (exists sg0 po0, OPool sg a po = OPool sg0 a po0 /\ ps_admin p ∈ sg0) \/
     ps_queue p' !! asset = None /\ ((exists sg0, OPool sg a po = OPool sg0 a (PSetRes asset)) \/ OPool sg a po = OExpireQueue a asset)) /\
    ps_backstop p' = ps_backstop p /\ ps_blnd p' = ps_blnd p /\ pc_oracle (ps_config p') = pc_oracle (ps_config p)) as Hau.
    { intros Ha H1 H2 H3 H4. simpl in Ha. apply mem_addr_in in Ha. split; [eauto 10|]. split; [eauto 10|].
      split; [|done]. intros asset _. left. eauto. }
    destruct po; try (by apply Hs); clear Hs Htriv.
    + apply initialize_spec in H as (_ & ? & _). congruence.
    + unfold p_set_admin in H. mon H. apply need_auth_ok in E, E0. apply Hau; try done.
      intros _. simpl in E0. by apply mem_addr_in.
    + unfold p_update_pool in H. mon H. apply need_auth_ok in E. by apply Hau.
    + unfold p_queue_reserve in H. mon H. apply need_auth_ok in E. by apply Hau.
    + unfold p_cancel_reserve in H. mon H. apply need_auth_ok in E. by apply Hau.
    + clear Hau. destruct H as (i & H & _). apply set_reserve_spec in H as (q & _ & _ & _ & _ & ->). simpl.
      split; [done|]. split; [intuition congruence|]. split; [|done].
      intros b Hb. right. destruct (decide (asset = b)) as [->|Hne].
      * rewrite lookup_delete. split; [done|]. left. eauto.
      * by rewrite lookup_delete_ne in Hb.
    + clear Hau. destruct H as (s & H & _). unfold p_update_status in H. mon H. simpl.
      split; [done|]. split; [intuition congruence|]. done.
    + apply set_status_range in H as (? & _ & ->). by apply Hau.
    + rewrite H. simpl. split; [done|]. split; [intuition congruence|]. done.
    + apply set_emis_spec in H as (? & Hx & _); [|done]. apply Hau; try done; rewrite Hx; done.
  - unfold pool in Hi. by rewrite Hn in Hi.
  - rewrite H. simpl. split; [done|]. split; [intuition congruence|]. done.
  - rewrite H. simpl. split; [done|]. split; [intuition congruence|]. split; [|done].
    intros b Hb. right. destruct (decide (r = b)) as [->|Hne].
    * rewrite lookup_delete. split; [done|]. by right.
    * by rewrite lookup_delete_ne in Hb.
Qed.

(** ** C35: emission shares *)
Theorem C35_emission_shares : forall w a, reachable w ->
  sumz snd (map_to_list (ps_pemis (pool w a))) <= 10000000 /\
  forall id v, ps_pemis (pool w a) !! id = Some v ->
    0 <= v <= 10000000 /\ exists asset, ps_list (pool w a) !! Z.to_nat (id / 2) = Some asset /\ 0 <= id.
Proof.
  intros w a Hr. pose proof (reachable_cfg_wf w a Hr) as W. split; [apply W|].
  intros id v Hv. destruct (cw_share _ W _ _ Hv) as [H1 H2].
  assert (v <= sumz snd (map_to_list (ps_pemis (pool w a)))).
  { change v with (snd (id, v)). apply sumz_ge_elem.
    - intros [i u] Hin. apply elem_of_map_to_list in Hin. by apply (cw_share _ W) in Hin as [? _].
    - by apply elem_of_map_to_list. }
  pose proof (cw_shares _ W). split; [lia|].
  assert (id / 2 < Z.of_nat (length (ps_list (pool w a)))) by (apply Z.div_lt_upper_bound; lia).
  assert (0 <= id / 2) by (apply Z.div_pos; lia).
  assert (Z.to_nat (id / 2) < length (ps_list (pool w a)))%nat as Hlt by lia.
  apply lookup_lt_is_Some_2 in Hlt as [asset Ha]. exists asset. split; [done|lia].
Qed.

(** ** C52: factory registry *)
Lemma fac_mint x t n x' : em_mint x t n = Ok x' -> x_fac x' = x_fac x.
Proof. unfold em_mint. intros H. by mon H. Qed.
Lemma fac_distr c x b n x' : em_execute_distribute c x b = Ok (n, x') -> x_fac x' = x_fac x.
Proof. unfold em_execute_distribute. intros H. mon H. by match goal with E : em_mint _ _ _ = Ok _ |- _ => apply fac_mint in E end. Qed.
Lemma fac_drop c x l x' : em_drop c x l = Ok x' -> x_fac x' = x_fac x.
Proof.
  unfold em_drop. intros H. mon H. simpl.
  match goal with E : foldM _ x _ = Ok ?y |- _ => revert E end.
  apply (foldM_rel (fun x x' => x_fac x' = x_fac x)); [done|congruence|].
  intros s e s' _ Hs. by apply fac_mint in Hs.
Qed.
Lemma deployed_step w o out w' :
  exec w o = Ok (out, w') ->
  forall a, fa_is_pool (w_ext w') a = true <->
    fa_is_pool (w_ext w) a = true \/
    exists sg admin salt orc rate mp, o = ODeploy sg admin salt orc rate mp /\ out = OutAddr a.
Proof.
  intros H a.
  assert (fa_deployed (x_fac (w_ext w')) = fa_deployed (x_fac (w_ext w)) ->
    (forall sg admin salt orc rate mp, o <> ODeploy sg admin salt orc rate mp) ->
    (fa_is_pool (w_ext w') a = true <-> fa_is_pool (w_ext w) a = true \/
    exists sg admin salt orc rate mp, o = ODeploy sg admin salt orc rate mp /\ out = OutAddr a)) as Htriv.
  { intros He Ho. unfold fa_is_pool. rewrite He. split; [auto|]. intros [?|(sg & ad & sa & orc & ra & mp & Hx & _)]; [done|].
    by apply Ho in Hx. }
  unfold exec in H. destruct o as [sg o|sg b o|sg ad sa orc ra mp|b|dt ds|orc|n|b t u|b r|].
  - mon H. simpl in *. apply Htriv; [|done]. destruct o; simpl in E; unfold ret_unit, ret_z in E; mon E; try done.
    + unfold em_initialize in E0. by mon E0.
    + unfold em_distribute in E0. mon E0. apply fac_distr in E0. by rewrite E0.
    + unfold em_queue_swap in E0. by mon E0.
    + unfold em_cancel_swap in E0. by mon E0.
    + unfold em_swap_backstop in E0. mon E0. simpl. match goal with E : em_execute_distribute _ _ _ = _ |- _ => apply fac_distr in E; by rewrite E end.
    + apply fac_drop in E0. by rewrite E0.
    + unfold fa_initialize in E0. by mon E0.
    + unfold b_initialize in E0. by mon E0.
    + by apply same_b_deposit in E0 as (_ & -> & _).
    + by apply same_b_queue in E0 as (_ & -> & _).
    + by apply same_b_dequeue in E0 as (_ & -> & _).
    + by apply same_b_withdraw in E0 as (_ & -> & _).
    + by apply same_b_draw in E0 as (_ & -> & _).
    + by apply same_b_donate in E0 as (_ & -> & _).
    + unfold b_update_tkn_val in E0. by mon E0.
    + unfold b_drop in E0. mon E0. match goal with E : em_drop _ _ _ = _ |- _ => apply fac_drop in E; by rewrite E end.
    + by apply same_b_add_reward in E0 as (_ & -> & _).
    + by apply same_b_gulp in E0 as (_ & -> & _).
    + by apply same_b_gulp_pool in E0 as (_ & -> & _).
    + by apply same_b_claim in E0 as (_ & -> & _).
  - mon H. apply same_p_exec in E0 as (_ & Hx & _). simpl in *. apply Htriv; [by rewrite Hx|done].
  - mon H. destruct (w_pools w !! _); mon H. clear Htriv. unfold fa_is_pool. simpl. rewrite !bool_decide_eq_true.
    rewrite elem_of_union, elem_of_singleton. split.
    + intros [->|?]; [right|by left]. by exists sg, ad, sa, orc, ra, mp.
    + intros [?|(? & ? & ? & ? & ? & ? & _ & Hx)]; [by right|left]. by injection Hx.
  - mon H. destruct (w_pools w !! _); mon H. by apply Htriv.
  - mon H. by apply Htriv.
  - mon H. by apply Htriv.
  - mon H. by apply Htriv.
  - mon H. by apply Htriv.
  - mon H. by apply Htriv.
  - mon H. by apply Htriv.
Qed.

(** C52: is_pool is true exactly for the addresses returned by successful deploy
    calls of the history *)
Theorem C52_registry_exact : forall w0 l a, initial w0 ->
  (fa_is_pool (w_ext (run w0 l)) a = true <->
   exists l1 sg admin salt orc rate mp l2 w',
     l = l1 ++ ODeploy sg admin salt orc rate mp :: l2 /\
     exec (run w0 l1) (ODeploy sg admin salt orc rate mp) = Ok (OutAddr a, w')).
Proof.
  intros w0 l a H0. induction l as [|o l IH] using rev_ind.
  { split.
    - destruct H0 as (? & ? & ? & ? & ? & -> & _). unfold fa_is_pool. simpl. rewrite bool_decide_eq_true. set_solver.
    - intros (l1 & ? & ? & ? & ? & ? & ? & l2 & ? & Hl & _). by destruct l1. }
  rewrite run_snoc. unfold step. destruct (exec (run w0 l) o) as [[out w']|e] eqn:E.
  - rewrite (deployed_step _ _ _ _ E a), IH. split.
    + intros [(l1 & sg & ad & sa & orc & ra & mp & l2 & w2 & -> & Hx)|(sg & ad & sa & orc & ra & mp & -> & ->)].
      * exists l1, sg, ad, sa, orc, ra, mp, (l2 ++ [o]), w2. split; [by rewrite <- app_assoc|done].
      * exists l, sg, ad, sa, orc, ra, mp, [], w'. done.
    + intros (l1 & sg & ad & sa & orc & ra & mp & l2 & w2 & Hl & Hx).
      destruct l2 as [|o2 l2 _] using rev_ind.
      * apply app_inj_tail in Hl as [-> ->]. rewrite E in Hx. injection Hx as -> _. right. by exists sg, ad, sa, orc, ra, mp.
      * rewrite app_comm_cons, app_assoc in Hl. apply app_inj_tail in Hl as [-> ->]. left. exists l1, sg, ad, sa, orc, ra, mp, l2, w2. done.
  - rewrite IH. split.
    + intros (l1 & sg & ad & sa & orc & ra & mp & l2 & w2 & -> & Hx).
      exists l1, sg, ad, sa, orc, ra, mp, (l2 ++ [o]), w2. split; [by rewrite <- app_assoc|done].
    + intros (l1 & sg & ad & sa & orc & ra & mp & l2 & w2 & Hl & Hx).
      destruct l2 as [|o2 l2 _] using rev_ind.
      * apply app_inj_tail in Hl as [-> ->]. rewrite E in Hx. discriminate.
      * rewrite app_comm_cons, app_assoc in Hl. apply app_inj_tail in Hl as [-> ->]. exists l1, sg, ad, sa, orc, ra, mp, l2, w2. done.
Qed.

(** C52: the state of a freshly deployed pool *)
Theorem C52_fresh_pool_safe : forall w sg admin salt orc rate mp a w',
  exec w (ODeploy sg admin salt orc rate mp) = Ok (OutAddr a, w') ->
  let p := pool w' a in
  admin ∈ sg /\ w_pools w !! a = None /\ ps_init p = true /\ ps_admin p = admin /\ status w' a = 6 /\
  ps_backstop p = fa_backstop (x_fac (w_ext w)) /\ ps_blnd p = fa_blnd (x_fac (w_ext w)) /\
  pc_oracle (ps_config p) = orc /\ pc_bstop_rate (ps_config p) = rate /\ rate < 10000000 /\
  pc_max_positions (ps_config p) = mp /\ 2 <= mp /\
  ps_list p = [] /\ ps_pos p = ∅ /\ ps_auct p = ∅ /\ ps_queue p = ∅ /\ ps_pemis p = ∅.
Proof.
  intros w sg admin salt orc rate mp a w' H p. unfold status. subst p.
  unfold exec in H. mon1 H. mon1 H. clear E. destruct (w_pools w !! dep_addr admin salt) eqn:Ep; [discriminate|].
  mon H. unfold pool. simpl. rewrite lookup_insert. simpl.
  apply initialize_spec in E as (Ha & _ & ? & ? & ->). simpl in *. apply mem_addr_in in Ha. repeat split; done.
Qed.

(** C52: an initialized pool can never be initialized again *)
Theorem C52_no_reinitialization : forall w l a sg ad orc r m b t,
  ps_init (pool w a) = true -> ~ succeeds (run w l) (OPool sg a (PInit ad orc r m b t)).
Proof.
  intros w l a sg ad orc r m b t Hi (out & w' & H).
  assert (ps_init (pool (run w l) a) = true) as Hi'.
  { apply (run_inv (fun w' => ps_init (pool w' a) = true)); [done|]. intros w1 o out1 w2 Hi1 H1.
    eapply init_step; [|done]. by eapply exec_pool. }
  apply (exec_pool _ _ _ _ a) in H. inversion H as [? ? ? _ Hno|? ? ? px ? _ _ Hp Hx Hw _ _| | |]; subst.
  { by eapply Hno. }
  apply p_exec_cfg in Hx as [_ Hx]. simpl in Hx. apply initialize_spec in Hx as (_ & ? & _). congruence.
Qed.

(** C52: the take rate is below 100% in every reachable state *)
Theorem C52_take_rate_bounded : forall w a, reachable w -> 0 <= pc_bstop_rate (ps_config (pool w a)) < 10000000.
Proof. intros w a Hr. by apply reachable_cfg_wf. Qed.
