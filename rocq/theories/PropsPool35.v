(** * Collecting a pool's emissions starts exactly the configured streams (C79) *)
From Verif Require Import PropsBackstop4 PropsBackstop9 PropsBackstop13.
From Verif Require Import Base Types Token Emitter Factory Backstop PoolReserve PoolUser PoolHealth
  PoolAuction PoolSubmit PoolEmis PoolAdmin World Facts XMove Spec FrameFacts PoolFrame PoolCfg PoolAccrue PoolTrace PoolInv AuctionFacts
  PoolSim PoolReq PoolHF PoolOps PoolLiq PoolReach PoolTx PoolEmisInv PoolEmisTx PropsPool1 PropsPool10.

Lemma gulp_pool_streams now new : forall es p p', good p -> emis_ok now p -> 0 <= new -> (forall id v, (id, v) ∈ es -> 0 <= v /\ 0 <= id) -> NoDup es.*1 ->
  foldM (gulp_res now new) p es = Ok p' ->
  (forall id sh, (id, sh) ∈ es -> ps_ecfg p' !! id = Some (restream now (ps_ecfg p !! id) (sh * new / 10000000))) /\
  (forall id, id ∉ es.*1 -> ps_ecfg p' !! id = ps_ecfg p !! id /\ ps_edata p' !! id = ps_edata p !! id) /\
  ps_pemis p' = ps_pemis p.
Proof.
  induction es as [|[id sh] es IH]; simpl; intros p p' G K Hnew Hes Hnd H.
  - apply Ok_inj in H as <-. split; [|done]. intros id sh Hin. by apply not_elem_of_nil in Hin.
  - apply bind_ok in H as (p1 & E & H). unfold gulp_res in E. apply bind_ok in E as (a & Ea & E). apply bind_ok in E as (n & En & E).
    simpl in *. destruct (Hes id sh ltac:(left)) as [Hsh Hid]. apply NoDup_cons in Hnd as [Hni Hnd].
    apply fmul_floor_ok in En as [-> _]; [|by vals]. change SCALAR_7 with 10000000 in E.
    assert (asset_of p id = Some a) as Ha.
    { unfold list_get in Ea. rewrite Z.quot_div_nonneg in Ea by lia. unfold asset_of. rewrite (proj2 (Z.leb_le _ _) Hid).
      destruct (_ <? 0) in Ea; [discriminate|]. destruct (ps_list p !! _) in Ea |- *; [|discriminate]. by injection Ea as ->. }
    assert (0 <= sh * new / 10000000) as Hn by (apply Z.div_pos; [apply Z.mul_nonneg_nonneg; lia|lia]).
    apply update_res_ecfg_spec in E as (e' & -> & Hl & Hi); [|done|done|done|done].
    assert (e' = mkEmisData (index_at now p id) now) as -> by (destruct e'; simpl in *; congruence).
    destruct (refill_facts now p id (sh * new / 10000000) G K ltac:(eauto) Hn) as (G1 & K1 & _).
    unfold refill in *.
    destruct (IH _ _ G1 K1 Hnew ltac:(intros i v Hi'; apply Hes; by right) Hnd H) as (I1 & I2 & I3).
    split; [|split; [|by rewrite I3]].
    + intros i s Hin. apply elem_of_cons in Hin as [Heq|Hin].
      * injection Heq as -> ->. rewrite (proj1 (I2 id Hni)). simpl. rewrite lookup_insert. unfold restream, unspent. done.
      * assert (i <> id) as Hne. { intros ->. apply Hni, elem_of_list_fmap. by exists (id, s). }
        rewrite (I1 _ _ Hin). simpl. by rewrite lookup_insert_ne.
    + intros i Hin. apply not_elem_of_cons in Hin as [Hne Hin]. destruct (I2 i Hin) as [J1 J2]. rewrite J1, J2. simpl. by rewrite !lookup_insert_ne.
Qed.

(** When a pool collects its emissions, the whole recorded amount (at least one BLND) is handed over, and each reserve token the pool's admin configured
    gets its configured part of it, paid within the next seven days together with what is left of its previous stream.  No other reserve token's stream
    changes, and nobody's claim does. *)
Theorem C79_pool_split : forall w sg a n w',
  reachable w -> exec w (OPool sg a PGulp) = Ok (OutZ n, w') ->
  n = recorded w a /\ 10000000 <= n /\ recorded w' a = 0 /\
  (forall id, match ps_pemis (pool w a) !! id with
    | Some sh => ps_ecfg (pool w' a) !! id = Some (restream (w_now w) (ps_ecfg (pool w a) !! id) (sh * n / 10000000))
    | None => ps_ecfg (pool w' a) !! id = ps_ecfg (pool w a) !! id /\ ps_edata (pool w' a) !! id = ps_edata (pool w a) !! id
    end) /\
  forall u id, claimable (w_now w) (pool w' a) u id = claimable (w_now w) (pool w a) u id.
Proof.
  intros w sg a n w' Hr E. pose proof (C47_handover_exact _ _ _ _ _ E) as (Hn & _ & Hz & _). fold (recorded w a) in Hn. fold (recorded w' a) in Hz.
  split; [done|]. clear Hn.
  unfold exec in E. apply assert_ok in E as [_ E]. apply bind_ok in E as (p & Hp & E). unfold unwrap in Hp. destruct (w_pools w !! a) as [p0|] eqn:Hw; [|discriminate]. apply Ok_inj in Hp as ->.
  assert (pool w a = p) as Hpw by (unfold pool; by rewrite Hw).
  apply bind_ok in E as ([o px] & E & H). apply Ok_inj in H. injection H as -> <-.
  simpl in E. apply assert_ok in E as [Hi E]. rewrite <- Hpw in E, Hi.
  pose proof (reachable_good _ a Hr Hi) as G. pose proof (reachable_emis _ a Hr) as K.
  unfold ret_z in E. apply bind_ok in E as ([z px1] & E & H). apply Ok_inj in H. injection H as -> ->.
  unfold p_gulp in E. apply bind_ok in E as ([new x] & _ & E). apply bind_ok in E as (p1 & E & E'). apply Ok_inj in E'. injection E' as -> <-. simpl in E, Hz |- *.
  unfold do_gulp in E. apply assert_ok in E as [Hnew E]. change SCALAR_7 with 10000000 in Hnew. apply negb_true_iff, Z.ltb_ge in Hnew.
  split; [done|]. split; [done|].
  assert (forall id v, (id, v) ∈ entries (ps_pemis (pool w a)) -> 0 <= v /\ 0 <= id) as Hes.
  { intros id v Hin. apply elem_of_entries in Hin. destruct (cw_share _ (gd_cfg _ G) _ _ Hin). lia. }
  assert (0 <= n) as Hn0 by lia.
  destruct (gulp_facts _ _ _ _ _ G K Hn0 Hes E) as (_ & _ & _ & _ & Hc & _).
  destruct (gulp_pool_streams _ _ _ _ _ G K Hn0 Hes (entries_fst_NoDup _) E) as (S1 & S2 & _).
  match goal with |- context [pool ?W a] => assert (pool W a = p1) as -> by (unfold pool; simpl; by rewrite lookup_insert) end.
  split; [|exact Hc]. intros id. destruct (ps_pemis (pool w a) !! id) as [sh|] eqn:Es.
  - apply S1. by apply elem_of_entries.
  - apply S2. intros Hin. apply elem_of_list_fmap in Hin as ([i v] & -> & Hin). apply elem_of_entries in Hin. simpl in Es. congruence.
Qed.
(** Finding: what is not configured is handed over all the same, and lost.  Anyone can make a pool collect its emissions, also before its admin has
    configured any reserve token: then no stream starts, and the record the backstop kept is gone. *)
Theorem C79_unconfigured_lost : forall w sg a n w',
  reachable w -> exec w (OPool sg a PGulp) = Ok (OutZ n, w') -> ps_pemis (pool w a) = ∅ ->
  10000000 <= n /\ recorded w a = n /\ recorded w' a = 0 /\ ps_ecfg (pool w' a) = ps_ecfg (pool w a) /\ ps_edata (pool w' a) = ps_edata (pool w a).
Proof.
  intros w sg a n w' Hr E Hp. destruct (C79_pool_split w sg a n w' Hr E) as (Hn & H1 & H2 & H3 & _). split; [done|]. split; [done|]. split; [done|].
  split; apply map_eq; intros id; specialize (H3 id); rewrite Hp, lookup_empty in H3; by destruct H3.
Qed.
(** The configured parts never sum to more than the whole, so the streams started never promise more than what was handed over. *)
Theorem C79_pool_parts_bounded : forall w a n, reachable w -> 0 <= n ->
  sumz (fun e => snd e * n / 10000000) (entries (ps_pemis (pool w a))) <= n.
Proof.
  intros w a n Hr Hn. apply sum_shares; [done|]. exact (cw_shares _ (reachable_cfg_wf w a Hr)).
Qed.
