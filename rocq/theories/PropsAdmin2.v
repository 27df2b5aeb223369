(** * Exact acceptance of administration calls (C62) *)
From Verif Require Import Base Types Token Emitter Factory Backstop PoolReserve PoolUser PoolHealth
  PoolAuction PoolSubmit PoolEmis PoolAdmin World Facts XMove Spec FrameFacts PoolFrame PoolCfg PropsEmitter PropsAdmin PropsBackstop PropsBackstop5 PoolInv PoolReach PoolTx PropsPool1 PropsPool2 PropsPool3 PropsPool4 PropsPool5 PropsPool6 PropsPool7 PropsPool9.

(** ** Specification *)

(** a world in which only the pool at [a] differs from [w] *)
Definition with_pool (w : World) (a : Addr) (p : PoolSt) : World := w <| w_pools := <[a := p]> (w_pools w) |>.
(** accounts (addresses above 3) signed the transaction *)
Definition accounts (sg : list Addr) : Prop := Forall (fun s => 3 < s) sg.
Definition pool_ready (w : World) (a : Addr) : Prop := ps_init (pool w a) = true.
(** the bounds documented for a reserve configuration, in the units of the API *)
Definition acceptable (m : ResConfig) : Prop :=
  rc_decimals m <= 18 /\ rc_c_factor m <= 10000000 /\ rc_l_factor m <= 10000000 /\
  rc_util m <= 9500000 /\ rc_util m < rc_max_util m /\ rc_max_util m <= 10000000 /\
  1000 <= rc_r_base m < 10000000 /\ rc_r_one m <= rc_r_two m /\ rc_r_two m <= rc_r_three m /\
  rc_reactivity m <= 1000.
(** an entry of set_emissions_config names a listed reserve and one of its two tokens *)
Definition meta_ok (w : World) (a : Addr) (m : EmisMeta) : Prop :=
  em_res_index m < Z.of_nat (length (ps_list (pool w a))) /\ em_res_type m <= 1.

(** ** Lemmas *)
Lemma accounts_ok sg : accounts sg <-> forallb ok_signer sg = true.
Proof.
  unfold accounts. rewrite forallb_forall, Forall_forall. unfold ok_signer. split; intros H s Hs.
  - apply Z.ltb_lt, H, elem_of_list_In, Hs.
  - apply Z.ltb_lt, H, elem_of_list_In, Hs.
Qed.
Lemma ready_stored w a : pool_ready w a -> w_pools w !! a = Some (pool w a).
Proof. unfold pool_ready, pool. by destruct (w_pools w !! a). Qed.
Lemma assert_iff {A} (b : bool) e (k : res A) r : (if b then k else Err e) = Ok r <-> b = true /\ k = Ok r.
Proof. destruct b; naive_solver. Qed.
Lemma bind_iff {A B} (m : res A) (f : A -> res B) r : bind m f = Ok r <-> exists a, m = Ok a /\ f a = Ok r.
Proof. destruct m as [a|]; simpl; [|naive_solver]. split; [eauto|]. by intros (a' & [= <-] & H). Qed.
Lemma auth_iff w sg a r : need_auth (ctx w sg) a = Ok r <-> a ∈ sg.
Proof. unfold need_auth. simpl. rewrite <- mem_addr_in. destruct r. destruct (mem_addr a sg); naive_solver. Qed.

Lemma opool_iff w sg a po out w' : pool_ready w a -> accounts sg -> ty_pop po = true ->
  (exec w (OPool sg a po) = Ok (out, w') <->
   exists px, p_exec (ctx w sg) a (mkPX (pool w a) (w_ext w)) po = Ok (out, px) /\ w' = with_pool w a (px_p px) <| w_ext := px_x px |>).
Proof.
  intros Hi Hs Ht. unfold exec. rewrite assert_iff, (proj1 (accounts_ok sg) Hs), Ht. rewrite (ready_stored _ _ Hi). simpl.
  rewrite bind_iff. split.
  - intros [_ ([o px] & E & [= <- <-])]. eauto.
  - intros (px & -> & ->). split; [done|]. by exists (out, px).
Qed.
Lemma on_pool_iff w sg a po out w' (r : res PoolSt) : pool_ready w a -> accounts sg -> ty_pop po = true ->
  p_exec (ctx w sg) a (mkPX (pool w a) (w_ext w)) po = on_pool (mkPX (pool w a) (w_ext w)) r ->
  (exec w (OPool sg a po) = Ok (out, w') <-> out = OutUnit /\ exists p, r = Ok p /\ w' = with_pool w a p).
Proof.
  intros Hi Hs Ht E. rewrite opool_iff by done. rewrite E. unfold on_pool. split.
  - intros (px & H & ->). apply bind_iff in H as (p & -> & [= <- <-]). split; [done|]. exists p. split; [done|]. by destruct w.
  - intros (-> & p & -> & ->). eexists. split; [done|]. by destruct w.
Qed.
Lemma exec_signers w sg a po r : exec w (OPool sg a po) = Ok r -> accounts sg /\ ty_pop po = true.
Proof. unfold exec. rewrite assert_iff. intros [H _]. apply andb_prop in H as [H ?]. by apply accounts_ok in H. Qed.
Lemma exec_ready w sg a po r : (forall x1 x2 x3 x4 x5 x6, po <> PInit x1 x2 x3 x4 x5 x6) -> exec w (OPool sg a po) = Ok r -> pool_ready w a.
Proof.
  intros Hne. unfold exec. rewrite assert_iff. intros [_ H]. apply bind_iff in H as (p & E & H). apply bind_iff in H as ([o px] & H & _).
  unfold pool_ready, pool. destruct (w_pools w !! a) as [p0|]; [|discriminate]. injection E as ->. simpl.
  unfold p_exec in H. destruct po; try (by apply assert_iff in H as [? _]). exfalso. by eapply Hne.
Qed.
Lemma valid_acceptable m : valid_metadata m = true <-> acceptable m.
Proof.
  unfold valid_metadata, acceptable. rewrite negb_true_iff, !orb_false_iff, !Z.ltb_ge, !Z.leb_gt. vals. lia.
Qed.

(** ** C62: each administration call succeeds exactly if the documented conditions hold, and then
    changes exactly what it names *)
Theorem C62_set_admin : forall w sg a n out w', accounts sg -> pool_ready w a ->
  exec w (OPool sg a (PSetAdmin n)) = Ok (out, w') <->
  admin_of w a ∈ sg /\ n ∈ sg /\ out = OutUnit /\ w' = with_pool w a (pool w a <| ps_admin := n |>).
Proof.
  intros w sg a n out w' Hs Hi. rewrite (on_pool_iff _ _ _ _ _ _ (p_set_admin (ctx w sg) (pool w a) n)); [|done..|by simpl; unfold pool_ready in Hi; rewrite Hi].
  unfold p_set_admin, admin_of. split.
  - intros (-> & p & H & ->). apply bind_iff in H as (? & H1 & H). apply bind_iff in H as (? & H2 & [= <-]). apply auth_iff in H1, H2. done.
  - intros (H1 & H2 & -> & ->). split; [done|]. eexists. split; [|done].
    apply bind_iff. exists tt. split; [by apply auth_iff|]. apply bind_iff. exists tt. split; [by apply auth_iff|done].
Qed.
Theorem C62_update_pool : forall w sg a rate mp out w', accounts sg -> pool_ready w a -> 0 <= rate <= u32_max -> 0 <= mp <= u32_max ->
  exec w (OPool sg a (PUpdatePool rate mp)) = Ok (out, w') <->
  admin_of w a ∈ sg /\ rate < 10000000 /\ out = OutUnit /\
  w' = with_pool w a (pool w a <| ps_config := ps_config (pool w a) <| pc_bstop_rate := rate |> <| pc_max_positions := mp |> |>).
Proof.
  intros w sg a rate mp out w' Hs Hi H1 H2. rewrite (on_pool_iff _ _ _ _ _ _ (p_update_pool (ctx w sg) (pool w a) rate mp)); [|done|done| |by simpl; unfold pool_ready in Hi; rewrite Hi].
  2: { simpl. apply andb_true_iff. split; by apply in_u32_iff. }
  unfold p_update_pool, admin_of. split.
  - intros (-> & p & H & ->). apply bind_iff in H as (? & Ha & H). apply assert_iff in H as [Hr [= <-]]. apply auth_iff in Ha.
    rewrite negb_true_iff, Z.leb_gt in Hr. done.
  - intros (Ha & Hr & -> & ->). split; [done|]. eexists. split; [|done].
    apply bind_iff. exists tt. split; [by apply auth_iff|]. apply assert_iff. split; [|done]. rewrite negb_true_iff, Z.leb_gt. done.
Qed.
Theorem C62_queue_set_reserve : forall w sg a r m out w', reachable w -> accounts sg -> pool_ready w a -> ty_cfg m = true -> w_now w + 604800 <= u64_max ->
  exec w (OPool sg a (PQueueRes r m)) = Ok (out, w') <->
  admin_of w a ∈ sg /\ ps_queue (pool w a) !! r = None /\ acceptable m /\ out = OutUnit /\
  w' = with_pool w a (pool w a <| ps_queue := <[r := mkQueuedRes m (if status w a =? 6 then w_now w else w_now w + 604800)]> (ps_queue (pool w a)) |>).
Proof.
  intros w sg a r m out w' Hr Hs Hi Ht Hn. pose proof (proj1 (reachable_time _ Hr)) as H0. rewrite (on_pool_iff _ _ _ _ _ _ (p_queue_reserve (ctx w sg) (pool w a) r m)); [|done..|by simpl; unfold pool_ready in Hi; rewrite Hi].
  unfold p_queue_reserve, admin_of, status. simpl.
  assert ((if negb (pc_status (ps_config (pool w a)) =? 6) then u64 (w_now w + SECONDS_PER_WEEK) else Ok (w_now w)) =
          Ok (if pc_status (ps_config (pool w a)) =? 6 then w_now w else w_now w + 604800)) as Eu.
  { destruct (_ =? 6); simpl; [done|]. change (w_now w + SECONDS_PER_WEEK) with (w_now w + 604800). unfold u64. by rewrite (proj2 (in_u64_iff _)) by lia. }
  rewrite Eu. split.
  - intros (-> & p & H & ->). apply bind_iff in H as (? & Ha & H). apply assert_iff in H as [Hq H]. apply assert_iff in H as [Hv [= <-]]. apply auth_iff in Ha.
    apply valid_acceptable in Hv. rewrite negb_true_iff, bool_decide_eq_false, <- eq_None_not_Some in Hq. done.
  - intros (Ha & Hq & Hv & -> & ->). split; [done|]. eexists. split; [|done].
    apply bind_iff. exists tt. split; [by apply auth_iff|]. apply assert_iff. split; [by rewrite Hq|]. apply assert_iff. by rewrite valid_acceptable.
Qed.
Theorem C62_cancel_set_reserve : forall w sg a r out w', accounts sg -> pool_ready w a ->
  exec w (OPool sg a (PCancelRes r)) = Ok (out, w') <->
  admin_of w a ∈ sg /\ out = OutUnit /\ w' = with_pool w a (pool w a <| ps_queue := delete r (ps_queue (pool w a)) |>).
Proof.
  intros w sg a r out w' Hs Hi. rewrite (on_pool_iff _ _ _ _ _ _ (p_cancel_reserve (ctx w sg) (pool w a) r)); [|done..|by simpl; unfold pool_ready in Hi; rewrite Hi].
  unfold p_cancel_reserve, admin_of. split.
  - intros (-> & p & H & ->). apply bind_iff in H as (? & Ha & [= <-]). by apply auth_iff in Ha.
  - intros (Ha & -> & ->). split; [done|]. eexists. split; [|done]. apply bind_iff. exists tt. split; [by apply auth_iff|done].
Qed.

(** a configuration that was queued can be put in force by anybody, exactly once its delay is over;
    a new reserve starts empty with both rates and the rate modifier at 1 *)
Theorem C62_set_new_reserve : forall w sg a r out w', reachable w -> accounts sg -> pool_ready w a -> res_cfg w a r = None ->
  exec w (OPool sg a (PSetRes r)) = Ok (out, w') <->
  exists q, ps_queue (pool w a) !! r = Some q /\ qr_unlock q <= w_now w /\ (length (ps_list (pool w a)) < 32)%nat /\
    let n := Z.of_nat (length (ps_list (pool w a))) in
    out = OutZ n /\
    w' = with_pool w a (pool w a <| ps_queue := delete r (ps_queue (pool w a)) |> <| ps_list := ps_list (pool w a) ++ [r] |>
           <| ps_rdata := <[r := mkResData 1000000000 1000000000 1000000000 0 0 (w_now w) 0]> (ps_rdata (pool w a)) |>
           <| ps_rcfg := <[r := qr_config q <| rc_index := n |>]> (ps_rcfg (pool w a)) |>).
Proof.
  intros w sg a r out w' Hr Hs Hi Hc. pose proof (C29_reserve_list_bijection w a Hr) as (Hl & _). rewrite opool_iff by done. simpl.
  unfold pool_ready in Hi. rewrite Hi. unfold p_set_reserve, initialize_reserve, res_cfg in *. simpl. rewrite Hc. split.
  - intros (px & H & ->). apply bind_iff in H as ([i p] & H & [= <- <-]). apply bind_iff in H as (q & Hq & H). apply assert_iff in H as [Hu H].
    apply bind_iff in H as ([j p1] & H & [= <- <-]). apply assert_iff in H as [Hn [= <- <-]].
    destruct (ps_queue (pool w a) !! r) as [q0|]; [|discriminate]. injection Hq as <-. exists q0. split; [done|].
    rewrite negb_true_iff, Z.ltb_ge in Hu. rewrite negb_true_iff, Z.eqb_neq in Hn. split; [done|]. split; [lia|]. simpl. split; [done|].
    by destruct w.
  - intros (q & Hq & Hu & Hn & -> & ->). rewrite Hq. simpl. eexists. split.
    + rewrite (proj2 (Z.ltb_ge (w_now w) (qr_unlock q))) by done. replace (Z.of_nat (length (ps_list (pool w a))) =? 32) with false by (symmetry; apply Z.eqb_neq; lia).
      simpl. reflexivity.
    + by destruct w.
Qed.
Theorem C62_set_existing_reserve : forall w sg a r cfg, reachable w -> accounts sg -> pool_ready w a -> res_cfg w a r = Some cfg ->
  succeeds w (OPool sg a (PSetRes r)) <->
  exists q, ps_queue (pool w a) !! r = Some q /\ qr_unlock q <= w_now w /\ rc_decimals (qr_config q) = rc_decimals cfg /\ accruable w a r.
Proof.
  intros w sg a r cfg Hr Hs Hi Hc. unfold succeeds. setoid_rewrite opool_iff; [|done..]. simpl. unfold pool_ready in Hi. rewrite Hi.
  unfold p_set_reserve, initialize_reserve, res_cfg in *. simpl. rewrite Hc. split.
  - intros (out & w' & px & H & _). apply bind_iff in H as ([i p] & H & _). apply bind_iff in H as (q & Hq & H). apply assert_iff in H as [Hu H].
    apply bind_iff in H as ([j p1] & H & _). apply bind_iff in H as ([r0 ch] & H & H2). apply assert_iff in H2 as [Hd _].
    destruct (ps_queue (pool w a) !! r) as [q0|]; [|discriminate]. injection Hq as <-. exists q0. split; [done|].
    rewrite negb_true_iff, Z.ltb_ge in Hu. apply Z.eqb_eq in Hd. split; [done|]. split; [done|].
    apply load_reserve_fields in H. simpl in H. apply load_res_fields in H as (cfg0 & d & Hc0 & Hd0 & _ & _ & _ & _ & _ & _ & Hac). simpl in *.
    exists cfg0, d, (r_data r0). done.
  - intros (q & Hq & Hu & Hd & Hac). rewrite Hq. simpl. destruct Hac as (cfg0 & d & d' & Hc0 & Hd0 & Hac). rewrite Hc in Hc0. injection Hc0 as <-.
    pose proof (C28_configs_valid w a r cfg Hr Hc) as Hv. assert (in_i128 (10 ^ rc_decimals cfg) = true) as Hp.
    { apply in_i128_iff. destruct Hv as (Hv & _). split; [pose proof (Z.pow_nonneg 10 (rc_decimals cfg)); vals; lia|]. etransitivity; [apply (Z.pow_le_mono_r 10 _ 18); lia|]. by vm_compute. }
    do 3 eexists. split; [|reflexivity]. rewrite (proj2 (Z.ltb_ge (w_now w) (qr_unlock q))) by done. simpl.
    unfold load_reserve. simpl. rewrite lookup_empty. unfold load_res. simpl. rewrite Hc. simpl.
    unfold reserve in Hd0. rewrite Hd0. simpl. unfold pow10, i128. rewrite Hp. simpl. unfold take_rate in Hac. rewrite Hac. simpl.
    rewrite Hd, Z.eqb_refl. reflexivity.
Qed.

(** [level w a = (q, met)]: what the backstop reports for the pool at [a]: the share of queued
    withdrawals (7 decimals) and whether the deposits meet the threshold *)
Definition reported (w : World) (a : Addr) (q : Z) (met : Prop) : Prop :=
  ps_backstop (pool w a) = bs_addr /\ exists d, pool_data (w_ext w) a = Ok d /\ q = pd_q4w_pct d /\
    (met <-> THRESHOLD <= exact_product (pd_blnd d) (pd_usdc d)).
Lemma reported_call w a q met : reported w a q met ->
  exists d, call_pool_data (pool w a) (w_ext w) a = Ok d /\ q = pd_q4w_pct d /\ (met <-> (threshold d <? SCALAR_7) = false).
Proof.
  intros (Hb & d & Hd & -> & Hm). exists d. unfold call_pool_data, to_backstop. rewrite Hb, Z.eqb_refl. split; [done|]. split; [done|].
  rewrite Hm, <- threshold_met, negb_true_iff. done.
Qed.
Theorem C62_set_status : forall w sg a s q met out w', accounts sg -> pool_ready w a -> reported w a q met -> 0 <= s <= u32_max ->
  exec w (OPool sg a (PSetStatus s)) = Ok (out, w') <->
  admin_of w a ∈ sg /\ (s = 0 /\ met /\ q < 5000000 \/ (s = 2 \/ s = 3) /\ q < 7500000 \/ s = 4) /\ out = OutUnit /\
  w' = with_pool w a (pool w a <| ps_config := ps_config (pool w a) <| pc_status := s |> |>).
Proof.
  intros w sg a s q met out w' Hs Hi Hl Hty. apply reported_call in Hl as (d & Hd & -> & Hm).
  rewrite (on_pool_iff _ _ _ _ _ _ (p_set_status (ctx w sg) a (pool w a) (w_ext w) s)); [|done|done|by apply in_u32_iff|by simpl; unfold pool_ready in Hi; rewrite Hi].
  unfold p_set_status, admin_of, set_config. split.
  - intros (-> & p & H & ->). apply bind_iff in H as (? & Ha & H). apply auth_iff in Ha. rewrite Hd in H. simpl in H. split; [done|].
    assert (s = 0 \/ s = 2 \/ s = 3 \/ s = 4) as [->|[->|[->| ->]]].
    { destruct s as [|[[[]|[]|]|[[]|[]|]|]|]; try discriminate; tauto. }
    all: try (apply assert_iff in H as [Hc H]; rewrite ?negb_true_iff, ?orb_false_iff, ?Z.leb_gt in Hc); injection H as <-.
    + split; [|done]. left. rewrite Hm. tauto.
    + split; [|done]. right. left. tauto.
    + split; [|done]. right. left. tauto.
    + split; [|done]. tauto.
  - intros (Ha & Hc & -> & ->). split; [done|]. eexists. split; [|done]. apply bind_iff. exists tt. split; [by apply auth_iff|]. rewrite Hd. simpl.
    destruct Hc as [(-> & Hme & Hq)|[([-> | ->] & Hq)| ->]]; [| | |done].
    + apply Hm in Hme. rewrite Hme. simpl. by rewrite (proj2 (Z.leb_gt _ _) Hq).
    + by rewrite (proj2 (Z.leb_gt _ _) Hq).
    + by rewrite (proj2 (Z.leb_gt _ _) Hq).
Qed.
Theorem C62_update_status : forall w sg a q met, accounts sg -> pool_ready w a -> reported w a q met ->
  succeeds w (OPool sg a PUpdateStatus) <-> status w a <> 4 /\ status w a <> 6.
Proof.
  intros w sg a q met Hs Hi Hl. apply reported_call in Hl as (d & Hd & -> & Hm). unfold succeeds. setoid_rewrite opool_iff; [|done..].
  unfold pool_ready in Hi. simpl. rewrite Hi. unfold p_update_status, status. rewrite Hd. simpl. split.
  - intros (out & w' & px & H & _). apply bind_iff in H as ([z p] & H & _). apply bind_iff in H as (s & H & _).
    split; intros E; rewrite E in H; discriminate.
  - intros [H4 H6]. assert (exists s, next_status (pc_status (ps_config (pool w a))) (pd_q4w_pct d) (negb (threshold d <? SCALAR_7)) = Ok s) as [s ->].
    { unfold next_status. destruct (pc_status (ps_config (pool w a))) as [|[[[]|[]|]|[[]|[]|]|]|]; try done; eauto. }
    simpl. eauto.
Qed.
(** shares given for tokens of listed reserves, up to 100% in all; the last entry for a token counts *)
Theorem C62_set_emissions : forall w sg a ms out w', reachable w -> accounts sg -> pool_ready w a ->
  (forall m, m ∈ ms -> 0 <= em_res_index m <= u32_max /\ 0 <= em_res_type m <= u32_max /\ 0 <= em_share m <= u64_max) ->
  exec w (OPool sg a (PSetEmis ms)) = Ok (out, w') <->
  admin_of w a ∈ sg /\ (forall m, m ∈ ms -> meta_ok w a m) /\ sumz em_share ms <= 10000000 /\ out = OutUnit /\
  w' = with_pool w a (pool w a <| ps_pemis := list_to_map (reverse (map (fun m => (2 * em_res_index m + em_res_type m, em_share m)) ms)) |>).
Proof.
  intros w sg a ms out w' Hr Hs Hi Hty. pose proof (C29_reserve_list_bijection w a Hr) as (Hlen & _).
  rewrite (on_pool_iff _ _ _ _ _ _ (p_set_emis (ctx w sg) (pool w a) ms)); [|done|done| |by simpl; unfold pool_ready in Hi; rewrite Hi].
  2: { simpl. apply forallb_forall. intros m Hm. apply elem_of_list_In, Hty in Hm as (? & ? & ?). rewrite !andb_true_iff, !in_u32_iff, in_u64_iff. done. }
  assert (forall ms m0 t0, (forall m, m ∈ ms -> 0 <= em_res_index m <= u32_max /\ 0 <= em_res_type m <= u32_max /\ 0 <= em_share m <= u64_max) -> 0 <= t0 ->
    (forall s, foldM (emis_meta_one (ps_list (pool w a))) (m0, t0) ms = Ok s ->
       (forall m, m ∈ ms -> meta_ok w a m) /\ s = (foldl (fun g m => <[2 * em_res_index m + em_res_type m := em_share m]> g) m0 ms, t0 + sumz em_share ms)) /\
    ((forall m, m ∈ ms -> meta_ok w a m) -> t0 + sumz em_share ms <= 10000000 -> is_ok (foldM (emis_meta_one (ps_list (pool w a))) (m0, t0) ms) = true)) as Hfold.
  { clear ms Hty. induction ms as [|m ms IH]; intros m0 t0 Hty Ht0.
    - split; [|done]. intros s [= <-]. split; [intros m Hm; by apply elem_of_nil in Hm|]. simpl. f_equal. unfold sumz. simpl. lia.
    - assert (0 <= em_res_index m <= u32_max /\ 0 <= em_res_type m <= u32_max /\ 0 <= em_share m <= u64_max) as (T1 & T2 & T3) by (apply Hty; left).
      assert (forall m, m ∈ ms -> 0 <= em_res_index m <= u32_max /\ 0 <= em_res_type m <= u32_max /\ 0 <= em_share m <= u64_max) as Hty' by (intros; apply Hty; by right).
      assert (is_ok (list_get (ps_list (pool w a)) (em_res_index m)) = true <-> em_res_index m < Z.of_nat (length (ps_list (pool w a)))) as Hlg.
      { unfold list_get. rewrite (proj2 (Z.ltb_ge _ _)) by lia. destruct (ps_list (pool w a) !! Z.to_nat (em_res_index m)) eqn:El; simpl.
        - apply lookup_lt_Some in El. split; [lia|done].
        - apply lookup_ge_None in El. split; [done|lia]. }
      rewrite sumz_cons. cbn [foldM foldl]. unfold emis_meta_one at 1 3. split.
      + intros s H. apply bind_iff in H as (s1 & H1 & H). apply bind_iff in H1 as (k0 & K0 & H1). apply bind_iff in H1 as (k & K & H1).
        apply assert_iff in H1 as [Hb H1]. apply bind_iff in H1 as (t1 & T & [= <-]). apply u32_ok in K0 as [-> _]. apply u32_ok in K as [-> _]. apply u64_ok in T as [-> _].
        rewrite negb_true_iff, orb_false_iff, Z.ltb_ge, negb_false_iff, Hlg in Hb. cbn [fst snd] in *.
        apply (IH _ _ Hty') in H as [Hm ->]; [|lia]. split.
        * intros m' [-> |Hin]%elem_of_cons; [split; tauto|auto].
        * replace (em_res_index m * 2 + em_res_type m) with (2 * em_res_index m + em_res_type m) by lia. f_equal. lia.
      + intros Hok Hle. assert (meta_ok w a m) as [M1 M2] by (apply Hok; left).
        assert (0 <= sumz em_share ms) by (apply sumz_nonneg; intros m' Hm'; by apply Hty').
        unfold u32. rewrite (proj2 (in_u32_iff _)) by (vals; lia). cbn [bind]. rewrite (proj2 (in_u32_iff _)) by (vals; lia). cbn [bind].
        rewrite (proj2 Hlg) by done. rewrite (proj2 (Z.ltb_ge _ _)) by lia. cbn [negb orb bind fst snd]. unfold u64. rewrite (proj2 (in_u64_iff _)) by (vals; lia). cbn [bind].
        apply (IH _ _ Hty'); [lia| |lia]. intros; apply Hok; by right. }
  assert (forall (ms : list EmisMeta) (m0 : gmap Z Z), foldl (fun g m => <[2 * em_res_index m + em_res_type m := em_share m]> g) m0 ms =
    list_to_map (reverse (map (fun m => (2 * em_res_index m + em_res_type m, em_share m)) ms)) ∪ m0) as Hmap.
  { clear. induction ms as [|m ms IH] using rev_ind; intros m0; [simpl; by rewrite (left_id_L ∅ (∪))|].
    rewrite foldl_app, map_app, reverse_app. simpl. rewrite IH. by rewrite insert_union_l. }
  destruct (Hfold ms ∅ 0 Hty ltac:(lia)) as [F1 F2]. unfold p_set_emis, admin_of. split.
  - intros (-> & p & H & ->). apply bind_iff in H as (? & Ha & H). apply auth_iff in Ha. apply bind_iff in H as ([mm tot] & H & H2).
    apply F1 in H as [Hok [= -> ->]]. apply assert_iff in H2 as [Hle [= <-]]. rewrite negb_true_iff, Z.ltb_ge in Hle. vals.
    split; [done|]. split; [done|]. split; [lia|]. split; [done|]. rewrite Hmap. by rewrite (right_id_L ∅ (∪)).
  - intros (Ha & Hok & Hle & -> & ->). split; [done|]. eexists. split; [|done]. apply bind_iff. exists tt. split; [by apply auth_iff|].
    specialize (F2 Hok ltac:(lia)). destruct (foldM _ _ ms) as [[mm tot]|] eqn:E; [|done]. destruct (F1 _ eq_refl) as [_ [= -> ->]]. simpl.
    rewrite (proj2 (Z.ltb_ge _ _)) by (vals; lia). simpl. rewrite Hmap. by rewrite (right_id_L ∅ (∪)).
Qed.

(** ** C62: the factory, the emitter and the reward zone *)
Lemma oext_iff w sg xo out w' : accounts sg -> ty_xop xo = true ->
  (exec w (OExt sg xo) = Ok (out, w') <-> exists x, x_exec (ctx w sg) (w_ext w) xo = Ok (out, x) /\ w' = w <| w_ext := x |>).
Proof.
  intros Hs Ht. unfold exec. rewrite assert_iff, (proj1 (accounts_ok sg) Hs), Ht. rewrite bind_iff. split.
  - intros [_ ([o x] & E & [= <- <-])]. eauto.
  - intros (x & -> & ->). split; [done|]. by exists (out, x).
Qed.
Lemma oext_unit_iff w sg xo out w' (r : res Ext) : accounts sg -> ty_xop xo = true -> x_exec (ctx w sg) (w_ext w) xo = ret_unit r ->
  (exec w (OExt sg xo) = Ok (out, w') <-> out = OutUnit /\ exists x, r = Ok x /\ w' = w <| w_ext := x |>).
Proof.
  intros Hs Ht E. rewrite oext_iff by done. rewrite E. unfold ret_unit. split.
  - intros (x & H & ->). apply bind_iff in H as (y & -> & [= <- <-]). eauto.
  - intros (-> & x & -> & ->). eauto.
Qed.
(** anybody can deploy a pool; its address depends on the admin and the salt only *)
Theorem C62_deploy : forall w sg admin salt orc rate mp out w', accounts sg -> 0 <= rate <= u32_max -> 0 <= mp <= u32_max ->
  exec w (ODeploy sg admin salt orc rate mp) = Ok (out, w') <->
  fa_init (x_fac (w_ext w)) = true /\ admin ∈ sg /\ rate < 10000000 /\ 2 <= mp /\ w_pools w !! dep_addr admin salt = None /\
  out = OutAddr (dep_addr admin salt) /\
  w' = with_pool w (dep_addr admin salt)
         (mkPoolSt true admin (fa_backstop (x_fac (w_ext w))) (fa_blnd (x_fac (w_ext w))) (mkPoolConfig orc rate 6 mp) [] ∅ ∅ ∅ ∅ ∅ ∅ ∅ ∅ ∅)
       <| w_ext := w_ext w <| x_fac := x_fac (w_ext w) <| fa_deployed := {[ dep_addr admin salt ]} ∪ fa_deployed (x_fac (w_ext w)) |> |> |>.
Proof.
  intros w sg admin salt orc rate mp out w' Hs H1 H2. unfold exec. rewrite assert_iff, (proj1 (accounts_ok sg) Hs), !(proj2 (in_u32_iff _)) by done.
  unfold fa_check_deploy. split.
  - intros [_ H]. apply bind_iff in H as (? & Hc & H). apply bind_iff in Hc as (? & Ha & Hc). apply auth_iff in Ha.
    apply assert_iff in Hc as [Hf Hc]. apply assert_iff in Hc as [Hra Hc]. apply assert_iff in Hc as [Hmp _].
    rewrite negb_true_iff in Hra, Hmp. apply Z.leb_gt in Hra. apply Z.ltb_ge in Hmp. vals.
    destruct (w_pools w !! dep_addr admin salt) eqn:Ep; [discriminate|]. apply bind_iff in H as (p & Hp & [= <- <-]).
    unfold p_initialize in Hp. apply bind_iff in Hp as (? & _ & Hp). apply assert_iff in Hp as [_ Hp]. apply assert_iff in Hp as [_ Hp]. apply assert_iff in Hp as [_ [= <-]].
    repeat (split; [done|]). done.
  - intros (Hf & Ha & Hra & Hmp & Ep & -> & ->). split; [done|]. assert (mem_addr admin sg = true) as Hm by by apply mem_addr_in.
    unfold need_auth. simpl. rewrite Hm, Hf. simpl. rewrite (proj2 (Z.leb_gt _ _)) by (vals; lia). simpl. rewrite (proj2 (Z.ltb_ge _ _)) by lia. simpl. rewrite Ep.
    unfold p_initialize, need_auth. simpl. rewrite Hm. simpl. rewrite (proj2 (Z.leb_gt _ _)) by (vals; lia). simpl. rewrite (proj2 (Z.ltb_ge _ _)) by lia. simpl. done.
Qed.

Theorem C62_queue_swap : forall w sg b t out w', reachable w -> accounts sg -> w_now w + 2678400 <= u64_max ->
  exec w (OExt sg (EQueueSwap b t)) = Ok (out, w') <->
  let e := x_em (w_ext w) in
  em_init e = true /\ em_swap e = None /\ holds_more w b /\ out = OutUnit /\
  w' = w <| w_ext := w_ext w <| x_em := e <| em_swap := Some (mkSwap b t (w_now w + 31 * 86400)) |> |> |>.
Proof.
  intros w sg b t out w' Hr Hs Hn. pose proof (proj1 (reachable_time _ Hr)) as H0. cbv zeta. rewrite (oext_unit_iff _ _ _ _ _ (em_queue_swap (ctx w sg) (w_ext w) b t)) by done.
  unfold em_queue_swap, em_is_larger, holds_more, set_em, tokens, emitter. simpl c_now.
  assert (u64 (w_now w + 31 * 24 * 60 * 60) = Ok (w_now w + 31 * 86400)) as Eu.
  { unfold u64. change (31 * 24 * 60 * 60) with 2678400. change (31 * 86400) with 2678400. by rewrite (proj2 (in_u64_iff _)) by lia. }
  rewrite Eu. cbn [bind]. split.
  - intros (-> & x & H & ->). apply assert_iff in H as [Hsw H]. apply assert_iff in H as [Hi H]. apply assert_iff in H as [Hl [= <-]]. apply Z.ltb_lt in Hl.
    destruct (em_swap (x_em (w_ext w))); [done|]. done.
  - intros (Hi & Hsw & Hl & -> & ->). split; [done|]. eexists. split; [|reflexivity]. rewrite Hsw, Hi. by rewrite (proj2 (Z.ltb_lt _ _)) by done.
Qed.
Theorem C62_cancel_swap : forall w sg out w', accounts sg ->
  exec w (OExt sg ECancelSwap) = Ok (out, w') <->
  let e := x_em (w_ext w) in
  exists sw, em_swap e = Some sw /\ ~ holds_more w (sw_backstop sw) /\ out = OutUnit /\
  w' = w <| w_ext := w_ext w <| x_em := e <| em_swap := None |> |> |>.
Proof.
  intros w sg out w' Hs. cbv zeta. rewrite (oext_unit_iff _ _ _ _ _ (em_cancel_swap (ctx w sg) (w_ext w))) by done.
  unfold em_cancel_swap, em_is_larger, holds_more, set_em, tokens, emitter. split.
  - intros (-> & x & H & ->). apply bind_iff in H as (sw & Hsw & H). apply assert_iff in H as [Hl [= <-]].
    destruct (em_swap (x_em (w_ext w))) as [sw0|]; [|discriminate]. injection Hsw as <-. exists sw0. rewrite negb_true_iff in Hl. apply Z.ltb_ge in Hl. split; [done|]. split; [lia|]. done.
  - intros (sw & Hsw & Hl & -> & ->). split; [done|]. eexists. split; [|reflexivity]. rewrite Hsw. cbn [unwrap_or bind]. by rewrite (proj2 (Z.ltb_ge _ _)) by lia.
Qed.

(** the time of the last distribution to the current backstop *)
Lemma last_bounded w : reachable w -> em_init (emitter w) = true -> exists last, last_of_current w = Some last /\ 0 <= last <= w_now w.
Proof.
  revert w. apply (reach_inv' (fun w => em_init (emitter w) = true -> exists last, last_of_current w = Some last /\ 0 <= last <= w_now w)).
  - intros w (? & ? & ? & ? & ? & -> & _). done.
  - intros w o out w' Hr IH H Hi'. pose proof (exec_now _ _ _ _ H) as Hn.
    destruct (em_init (emitter w)) eqn:Hi.
    + destruct (IH eq_refl) as (last & Hl & Hb). destruct (emitted_step _ _ _ _ _ H Hi Hl) as (_ & last' & Hl' & _). exists last'. split; [done|].
      pose proof (exec_em _ _ _ _ H) as Hem. unfold last_of_current in *.
      assert (emitter w' = emitter w -> 0 <= last' <= w_now w') as Hsame by (intros E; rewrite E in Hl'; rewrite Hl in Hl'; injection Hl' as <-; lia).
      destruct o as [sg o| | | | | | | | |]; try (by apply Hsame). unfold exec in H. mon1 H. destruct o; try (by apply Hsame); mon H; clear Hem;
        unfold x_exec, ret_unit, ret_z in E; mon E; unfold emitter in *; simpl in *.
      * unfold em_initialize in E0. mon E0. rewrite Hi in G0. discriminate.
      * unfold em_distribute in E0. mon E0. apply em_execute_distribute_spec in E0 as (l & Hl2 & Hle & -> & Hem & _).
        rewrite Hem in Hl'. simpl in Hl'. rewrite lookup_insert in Hl'. injection Hl' as <-. lia.
      * unfold em_queue_swap in E0. mon E0. simpl in Hl'. rewrite Hl in Hl'. injection Hl' as <-. lia.
      * unfold em_cancel_swap in E0. mon E0. simpl in Hl'. rewrite Hl in Hl'. injection Hl' as <-. lia.
      * unfold em_swap_backstop in E0. mon E0. apply em_execute_distribute_spec in E1 as (l & Hl2 & Hle & -> & Hem & _). simpl in *.
        rewrite lookup_insert in Hl'. injection Hl' as <-. lia.
      * unfold em_drop in E0. mon E0. mints_as Hem. simpl in Hl'. rewrite Hem in Hl'. rewrite Hl in Hl'. injection Hl' as <-. lia.
      * unfold b_drop, em_drop in E0. mon E0. mints_as Hem. simpl in Hl'. rewrite Hem in Hl'. rewrite Hl in Hl'. injection Hl' as <-. lia.
    + pose proof (exec_em _ _ _ _ H) as Hem.
      assert (emitter w' = emitter w -> False) as Hsame by (intros E; rewrite E in Hi'; congruence).
      destruct o as [sg o| | | | | | | | |]; try (by destruct (Hsame Hem)). unfold exec in H. mon1 H. destruct o; try (by destruct (Hsame Hem)); mon H; clear Hem;
        unfold x_exec, ret_unit, ret_z in E; mon E; unfold emitter, last_of_current in *; simpl in *.
      * unfold em_initialize in E0. mon E0. simpl. rewrite lookup_insert. exists (w_now w). split; [done|]. pose proof (reachable_time _ Hr). lia.
      * unfold em_distribute in E0. mon E0. congruence.
      * unfold em_queue_swap in E0. mon E0. congruence.
      * unfold em_cancel_swap in E0. mon E0. simpl in Hi'. congruence.
      * unfold em_swap_backstop in E0. mon E0. apply em_execute_distribute_spec in E1 as (l & Hl2 & Hle & -> & Hem & _). simpl in *. rewrite Hem in Hi'. simpl in Hi'. congruence.
      * unfold em_drop in E0. mon E0. congruence.
      * unfold b_drop, em_drop in E0. mon E0. congruence.
Qed.

(** the BLND that distributing now would mint *)
Definition due (w : World) : Z := (w_now w - default 0 (last_of_current w)) * 10000000.
Definition mint_fits (w : World) : Prop :=
  due w <= i128_max /\ balance (tokens w) (em_blnd (emitter w)) (em_backstop (emitter w)) + due w <= i128_max.
Lemma distribute_total w sg : reachable w -> em_init (emitter w) = true -> mint_fits w ->
  exists x, em_execute_distribute (ctx w sg) (w_ext w) (em_backstop (emitter w)) = Ok (due w, x).
Proof.
  intros Hr Hi [M1 M2]. destruct (last_bounded w Hr Hi) as (last & Hl & Hb). unfold due in *. rewrite Hl in *. simpl default in *.
  pose proof (reachable_tok_nonneg w Hr (em_blnd (emitter w)) (em_backstop (emitter w))) as Hn.
  pose proof (reachable_time w Hr) as Ht. unfold last_of_current, emitter, tokens in *.
  unfold em_execute_distribute, em_get_last. rewrite Hl. cbn [unwrap unwrap_or bind]. simpl c_now. unfold u64. rewrite (proj2 (in_u64_iff _)) by lia. cbn [bind].
  change SCALAR_7 with 10000000. unfold i128 at 1. rewrite (proj2 (in_i128_iff _)) by (unfold i128_min; lia). cbn [bind].
  unfold em_mint, mint. simpl. rewrite (proj2 (Z.leb_le _ _)) by lia. unfold i128. rewrite (proj2 (in_i128_iff _)) by (unfold i128_min; lia). simpl. eauto.
Qed.
Theorem C62_distribute : forall w sg, reachable w -> accounts sg -> mint_fits w ->
  succeeds w (OExt sg EDistribute) <-> em_init (emitter w) = true.
Proof.
  intros w sg Hr Hs Hf. unfold succeeds. setoid_rewrite oext_iff; [|done..]. simpl. unfold em_distribute, emitter. split.
  - intros (out & w' & x & H & _). apply bind_iff in H as (y & H & _). by apply assert_iff in H as [? _].
  - intros Hi. destruct (distribute_total w sg Hr Hi Hf) as [x E]. unfold emitter in E. rewrite Hi. simpl. rewrite E. simpl. eauto.
Qed.
Theorem C62_swap_backstop : forall w sg, reachable w -> accounts sg -> mint_fits w ->
  succeeds w (OExt sg ESwap) <-> exists sw, em_swap (emitter w) = Some sw /\ sw_unlock sw <= w_now w /\ holds_more w (sw_backstop sw).
Proof.
  intros w sg Hr Hs Hf. unfold succeeds. setoid_rewrite oext_iff; [|done..]. simpl. unfold em_swap_backstop, holds_more, em_is_larger, tokens. simpl c_now. split.
  - intros (out & w' & x & H & _). apply bind_iff in H as (y & H & _). apply bind_iff in H as (sw & Hsw & H). apply assert_iff in H as [Hu H].
    apply assert_iff in H as [Hl _]. unfold emitter. destruct (em_swap _) as [s|]; [|discriminate]. injection Hsw as <-. exists s. rewrite negb_true_iff in Hu. apply Z.ltb_ge in Hu. apply Z.ltb_lt in Hl. done.
  - intros (sw & Hsw & Hu & Hl). assert (em_init (emitter w) = true) as Hi.
    { destruct Hr as (w0 & l & H0 & ->). by apply (swap_queued w0 l sw). }
    destruct (distribute_total w sg Hr Hi Hf) as [x E]. unfold emitter in *. rewrite Hsw. cbn [unwrap_or bind].
    rewrite (proj2 (Z.ltb_ge _ _)) by done. cbn [negb]. rewrite (proj2 (Z.ltb_lt _ _)) by done. rewrite E. simpl. eauto.
Qed.

(** the reward zone: a pool can be added exactly if it is not listed, meets the threshold and there is
    room or it replaces a listed pool that has fewer backstop tokens, at most a day after the last distribution *)
Theorem C62_add_reward : forall w sg p r d, reachable w -> accounts sg -> pool_data (w_ext w) p = Ok d ->
  let rz := bs_rz (x_bs (w_ext w)) in
  succeeds w (OExt sg (BAddReward p r)) <->
  p ∉ rz /\ THRESHOLD <= exact_product (pd_blnd d) (pd_usdc d) /\
  (Z.of_nat (length rz) < max_rz_len (w_now w) \/
   r ∈ rz /\ 86400 <= w_now w <= bs_last (x_bs (w_ext w)) + 86400 /\ pb_tokens (get_pb (w_ext w) r) < pd_tokens d).
Proof.
  intros w sg p r d Hr Hs Hd rz. unfold succeeds. setoid_rewrite oext_iff; [|done..]. simpl. unfold b_add_reward. fold rz. rewrite Hd. simpl.
  pose proof (reachable_time w Hr) as Ht. rewrite <- (proj1 (C31_threshold_exact d)). split.
  - intros (out & w' & x & H & _). apply bind_iff in H as (y & H & _). apply assert_iff in H as [Hn H]. apply assert_iff in H as [Ha H].
    split. { intros Hin. apply mem_addr_in in Hin. rewrite Hin in Hn. done. } split; [done|].
    destruct (Z.ltb_spec (Z.of_nat (length rz)) (max_rz_len (w_now w))); [by left|]. right.
    apply assert_iff in H as [Hm H]. apply bind_iff in H as (lim & El & H). apply u64_ok in El as [-> Hlim]. apply assert_iff in H as [Hla H]. apply assert_iff in H as [Htk _].
    rewrite negb_true_iff in Hla, Htk. apply Z.ltb_ge in Hla. apply Z.leb_gt in Htk. apply mem_addr_in in Hm. change (24 * 60 * 60) with 86400 in *. split; [done|]. lia.
  - intros (Hn & Ha & Hc). assert (mem_addr p rz = false) as -> by (apply not_true_iff_false; by rewrite mem_addr_in). simpl. rewrite Ha.
    destruct (Z.ltb_spec (Z.of_nat (length rz)) (max_rz_len (w_now w))); [simpl; eauto|]. destruct Hc as [?|(Hin & Hl & Htk)]; [lia|].
    apply mem_addr_in in Hin. rewrite Hin. unfold u64. rewrite (proj2 (in_u64_iff _)) by (change (24 * 60 * 60) with 86400; lia). cbn [bind].
    rewrite (proj2 (Z.ltb_ge _ _)) by (change (24 * 60 * 60) with 86400; lia). simpl. rewrite (proj2 (Z.leb_gt _ _)) by done. simpl. eauto.
Qed.
