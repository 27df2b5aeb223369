(** * The distribution of emissions over the reward zone is exact and proportional (C79) *)
From Verif Require Import Base Types Token Emitter Factory Backstop PoolReserve PoolUser PoolHealth
  PoolAuction PoolSubmit PoolEmis PoolAdmin World Facts XMove Spec FrameFacts PoolFrame PoolCfg BackMoves BackInv BackEmis
  PropsEmitter PropsAdmin PropsBackstop PropsBackstop2 PropsBackstop3 PropsBackstop4 PropsBackstop5 PoolInv PoolReach PoolTx PropsAdmin2
  PropsBackstop6 PropsBackstop7 PropsBackstop8 PropsBackstop9.

(** ** Specification *)
(** the stream that pays [amt] and what is left of the stream [old] within the next seven days *)
Definition restream (now : Z) (old : option EmisConfig) (amt : Z) : EmisConfig :=
  mkEmisConfig (now + 604800) ((amt + match old with Some c => ec_eps c * Z.max 0 (ec_exp c - now) | None => 0 end) / 604800).
(** the part of pool [p] in the reward zone's unqueued tokens, with seven decimals *)
Definition zone_share (w : World) (p : Addr) : Z := unqueued_tokens w p * 10000000 / zone_tokens w.

(** ** Lemmas *)
Lemma non_queued_exact w p n : reachable w -> non_queued (pool_bal w p) = Ok n -> n = unqueued_tokens w p.
Proof.
  intros Hr H. unfold non_queued in H. apply bind_ok in H as (q & E & H). apply i128_ok in H as [-> _]. unfold unqueued_tokens, tokens_for, to_tokens in *.
  pose proof (binv_pool _ _ p (reachable_binv w Hr)) as [B _]. fold (pool_bal w p) in B. destruct (Z.eqb_spec (pb_shares (pool_bal w p)) 0) as [Hz|Hz]; [by apply Ok_inj in E as ->|].
  apply fmul_floor_ok in E as [-> _]; [done|lia].
Qed.
Lemma gulp_streams c x0 total tp tb : 0 < total -> 0 <= tb -> forall l x x', foldM (gulp_one c total tp tb) x l = Ok x' -> NoDup l -> bs_pool (x_bs x) = bs_pool (x_bs x0) ->
  (forall p n, non_queued (get_pb x0 p) = Ok n -> 0 <= n) -> einv (c_now c) x ->
  forall p, if decide (p ∈ l) then exists n, non_queued (get_pb x0 p) = Ok n /\ bs_ecfg (x_bs x') !! p = Some (restream (c_now c) (bs_ecfg (x_bs x) !! p) (n * 10000000 / total * tb / 10000000))
    else bs_ecfg (x_bs x') !! p = bs_ecfg (x_bs x) !! p /\ bs_edata (x_bs x') !! p = bs_edata (x_bs x) !! p.
Proof.
  intros Ht Htb. induction l as [|p l IH]; intros x x' H Hn Hb Hq He q; simpl in H.
  { apply Ok_inj in H as <-. rewrite decide_False; [done|]. apply not_elem_of_nil. }
  apply bind_ok in H as (x1 & E & H). apply NoDup_cons in Hn as [Hnp Hn].
  unfold gulp_one in E. apply bind_ok in E as (n & E1 & E). apply bind_ok in E as (sh & E2 & E). apply bind_ok in E as (np & E3 & E). apply bind_ok in E as (cur & E4 & E).
  apply bind_ok in E as (nb & E5 & E). apply bind_ok in E as (x2 & E6 & E). apply Ok_inj in E as <-.
  rewrite (get_pb_same _ _ _ Hb) in E1. pose proof (Hq _ _ E1) as Hn0. apply fdiv_floor_ok in E2 as [-> _]; [|done]. apply fmul_floor_ok in E5 as [-> _]; [|by vals].
  assert (0 <= n * 10000000 / total * tb / 10000000) as Hnb. { apply Z.div_pos; [|lia]. apply Z.mul_nonneg_nonneg; [|done]. apply Z.div_pos; lia. }
  change SCALAR_7 with 10000000 in *. set (nb := n * 10000000 / total * tb / 10000000) in *.
  assert (einv (c_now c) (set_pemis x p cur)) as He' by exact He.
  pose proof (b_set_ecfg_einv _ _ _ _ _ _ E6 He' Hnb) as He2. pose proof (b_set_ecfg_fields _ _ _ _ _ _ E6) as ((_ & Hb2) & _).
  destruct (b_set_ecfg_spec _ _ _ _ _ _ E6 He' Hnb) as (d' & Hx2 & _).
  specialize (IH _ _ H Hn ltac:(simpl; rewrite Hb2; exact Hb) Hq He2 q).
  assert (bs_ecfg (x_bs x2) = <[p := restream (c_now c) (bs_ecfg (x_bs x) !! p) nb]> (bs_ecfg (x_bs x))) as Hcfg by (by rewrite Hx2).
  assert (forall q, q <> p -> bs_edata (x_bs x2) !! q = bs_edata (x_bs x) !! q) as Hdat. { intros q' Hne. rewrite Hx2. simpl. by rewrite lookup_insert_ne. }
  change (bs_ecfg (x_bs (add_log (EvAlloc p np nb) x2))) with (bs_ecfg (x_bs x2)) in IH. change (bs_edata (x_bs (add_log (EvAlloc p np nb) x2))) with (bs_edata (x_bs x2)) in IH.
  rewrite Hcfg in IH. destruct (decide (q = p)) as [->|Hne].
  - rewrite (decide_True (P := p ∈ p :: l)) by left. rewrite (decide_False (P := p ∈ l)) in IH by done. destruct IH as [I1 _]. rewrite lookup_insert in I1. by exists n.
  - rewrite lookup_insert_ne in IH by done. rewrite Hdat in IH by done. destruct (decide (q ∈ l)) as [Hi|Hi].
    + rewrite (decide_True (P := q ∈ p :: l)) by (by right). done.
    + rewrite (decide_False (P := q ∈ p :: l)) by (rewrite elem_of_cons; tauto). done.
Qed.

Lemma alloc_pool_zone w tp tb l evs p : reachable w -> Forall2 (ev_alloc (w_ext w) (zone_tokens w) tp tb) l evs -> NoDup l ->
  alloc_pool evs p = if decide (p ∈ l) then zone_share w p * tp / 10000000 else 0.
Proof.
  intros Hr H. induction H as [|q e l evs (n & s & Hn & -> & ->) _ IH]; intros Hnd.
  { rewrite decide_False by apply not_elem_of_nil. done. }
  apply NoDup_cons in Hnd as [Hq Hnd]. specialize (IH Hnd). apply (non_queued_exact w q n Hr) in Hn as ->.
  unfold alloc_pool in *. rewrite sumz_cons, IH. destruct (Z.eqb_spec q p) as [->|Hne].
  - rewrite (decide_True (P := p ∈ p :: l)) by left. rewrite (decide_False (P := p ∈ l)) by done. fold (zone_share w p). lia.
  - destruct (decide (p ∈ l)) as [Hi|Hi].
    + rewrite (decide_True (P := p ∈ q :: l)) by (by right). lia.
    + rewrite (decide_False (P := p ∈ q :: l)) by (rewrite elem_of_cons; intros [->|?]; done). lia.
Qed.

(** ** C79 *)
(** A distribution announces (in its event) what the emitter gave the backstop since the last one, all of which is now distributed.  Each pool of the reward zone gets
    its part of the zone's unqueued tokens: 30% is recorded for the pool to collect, and 70% is paid, with what is left of its previous stream, to the
    pool's depositors over the next seven days.  Nothing changes for other pools. *)
Theorem C79_distribution_split : forall w sg n w',
  reachable w -> exec w (OExt sg BGulp) = Ok (OutZ n, w') ->
  n = undistributed w /\ 3600 * 10000000 < n /\ undistributed w' = 0 /\ 0 < zone_tokens w /\
  forall p, if decide (p ∈ zone w) then
      recorded w' p = recorded w p + zone_share w p * (3 * n / 10) / 10000000 /\
      bs_ecfg (x_bs (w_ext w')) !! p = Some (restream (w_now w) (bs_ecfg (x_bs (w_ext w)) !! p) (zone_share w p * (7 * n / 10) / 10000000))
    else recorded w' p = recorded w p /\ bs_ecfg (x_bs (w_ext w')) !! p = bs_ecfg (x_bs (w_ext w)) !! p /\ bs_edata (x_bs (w_ext w')) !! p = bs_edata (x_bs (w_ext w)) !! p.
Proof.
  intros w sg n w' Hr E. unfold exec in E. apply assert_ok in E as [_ E]. apply bind_ok in E as ([o y] & E & H). apply Ok_inj in H. injection H as -> <-. cbn [x_exec] in E. unfold ret_z in E.
  apply bind_ok in E as ([m z] & E & H). apply Ok_inj in H. injection H as -> ->. cbn [w_ext w_now].
  destruct (reachable_ginv w Hr) as [Hb He].
  pose proof E as E'. unfold b_gulp in E'. apply assert_ok in E' as [_ E']. apply assert_ok in E' as [Hi E']. apply assert_ok in E' as [_ E'].
  apply bind_ok in E' as (el & Hel & E'). apply bind_ok in E' as (lim & Hlim & E'). apply u64_ok in Hlim as [-> _]. apply assert_ok in E' as [Hlate E'].
  apply bind_ok in E' as (dt & Hdt & E'). apply bind_ok in E' as (nw & Hnw & E'). apply bind_ok in E' as (tb & Htb & E'). apply bind_ok in E' as (tp & Htp & E').
  apply bind_ok in E' as (tot & Htot & E'). apply bind_ok in E' as (x1 & El & E'). apply Ok_inj in E'. injection E' as -> ->.
  unfold em_get_last, unwrap, unwrap_or in Hel. destruct (em_last (x_em (w_ext w)) !! bs_addr) as [el'|] eqn:Hl; [|discriminate]. apply Ok_inj in Hel as ->.
  apply u64_ok in Hdt as [-> Hdt]. apply i128_ok in Hnw as [-> _].
  apply fmul_floor_ok in Htb as [-> _]; [|by vals]. apply fmul_floor_ok in Htp as [-> _]; [|by vals].
  set (n := (el - bs_last (x_bs (w_ext w))) * SCALAR_7) in *.
  assert (n = undistributed w) as Hund by (unfold undistributed, emitter; by rewrite Hl).
  assert (3600 * 10000000 < n) as Hn1. { apply negb_true_iff, Z.leb_gt in Hlate. unfold n. vals. lia. }
  assert (0 <= n) as Hn0 by lia.
  assert (tot = zone_tokens w) as Htz.
  { apply gulp_sum_ok in Htot as (ns & Hf & ->). unfold zone_tokens. change (bs_rz (x_bs (w_ext w))) with (zone w) in Hf. clear -Hf Hr.
    induction Hf as [|p k l ns Hk _ IH]; [done|]. rewrite !sumz_cons, IH. unfold id at 1. f_equal. by apply non_queued_exact. }
  assert (forall p k, non_queued (get_pb (w_ext w) p) = Ok k -> 0 <= k) as Hnn by (intros p k Hk; by eapply non_queued_nonneg).
  assert (0 < zone_tokens w) as Hzt.
  { pose proof (b_gulp_spec _ _ _ _ _ E Hb) as (_ & tot' & evs & _ & _ & _ & _ & Hpos & _ & Hf & _). destruct (bs_rz (x_bs (w_ext w))) as [|p l] eqn:Erz.
    - exfalso. unfold b_gulp in E. rewrite Erz in E. simpl in E. discriminate.
    - assert (0 <= zone_tokens w) as H0. { unfold zone_tokens. apply sumz_nonneg. intros q _. unfold unqueued_tokens, tokens_for. pose proof (binv_pool _ _ q Hb) as [B1 B2]. fold (pool_bal w q) in B1, B2.
        destruct (Z.eqb_spec (pb_shares (pool_bal w q)) 0); [lia|]. assert (pb_q4w (pool_bal w q) * pb_tokens (pool_bal w q) / pb_shares (pool_bal w q) <= pb_tokens (pool_bal w q)); [|lia].
        apply Z.div_le_upper_bound; [lia|]. apply Z.mul_le_mono_nonneg_r; lia. }
      destruct (decide (zone_tokens w = 0)) as [Hz|]; [|lia]. exfalso. rewrite Htz, Hz in El. cbn [foldM] in El. apply bind_ok in El as (x2 & El & _). unfold gulp_one in El.
      apply bind_ok in El as (k & _ & El). apply bind_ok in El as (s & Hs & _). unfold fdiv_floor in Hs. apply bind_ok in Hs as (r & _ & Hs). by apply div_floor_zero in Hs. }
  rewrite Htz in El. clear Htz Htot tot.
  assert (n * 7000000 / SCALAR_7 = 7 * n / 10 /\ n * 3000000 / SCALAR_7 = 3 * n / 10) as [H7 H3].
  { vals. split; [replace (n * 7000000) with (7 * n * 1000000) by ring|replace (n * 3000000) with (3 * n * 1000000) by ring]; rewrite <- (Z.div_mul_cancel_r _ 10 1000000) by lia; done. }
  rewrite H7, H3 in El.
  pose proof (C46_no_duplicates_and_bounded w Hr) as [Hnd _].
  pose proof (gulp_streams (ctx w sg) (w_ext w) (zone_tokens w) _ (7 * n / 10) Hzt ltac:(apply Z.div_pos; lia) _ _ _ El Hnd ltac:(done) Hnn He) as Hst.
  destruct (gulp_loop _ _ _ _ _ (w_ext w) _ _ El Hzt ltac:(done)) as (evs & _ & Hev & Hrz & Hla & _ & Hpe).
  split; [done|]. split; [done|]. split.
  { unfold undistributed, emitter. cbn [w_ext]. pose proof (same_b_gulp _ _ _ _ E) as (Hsame & _ & _). change (w_ext (w <| w_ext := y |>)) with y. rewrite Hsame, Hl, Hla. cbn. lia. }
  split; [done|]. intros p. specialize (Hst p). unfold recorded. cbn [w_ext]. rewrite Hpe. change (get_pemis (set_bs _ _) p) with (get_pemis (w_ext w) p).
  rewrite (alloc_pool_zone w _ _ _ _ p Hr Hev Hnd). change (bs_rz (x_bs (w_ext w))) with (zone w) in *. destruct (decide (p ∈ zone w)) as [Hp|Hp].
  - destruct Hst as (k & Hk & Hst). split; [done|]. apply (non_queued_exact w p k Hr) in Hk as ->. exact Hst.
  - destruct Hst as [S1 S2]. split; [lia|]. by split.
Qed.

Lemma shares_sum f tot : 0 < tot -> forall l, 10000000 * sumz f l - Z.of_nat (length l) * tot <= tot * sumz (fun p : Addr => f p * 10000000 / tot) l <= 10000000 * sumz f l /\
  (l <> [] -> 10000000 * sumz f l - Z.of_nat (length l) * tot < tot * sumz (fun p : Addr => f p * 10000000 / tot) l).
Proof.
  intros Ht. induction l as [|p l [IH IH']]; [cbn; split; [lia|done]|]. rewrite !sumz_cons. cbn [length]. rewrite Nat2Z.inj_succ.
  pose proof (Z.mod_pos_bound (f p * 10000000) tot Ht) as B. rewrite Z.mod_eq in B by lia.
  generalize dependent (f p * 10000000 / tot). intros q B. split; [nia|]. intros _. nia.
Qed.
Lemma unqueued_nonneg w p : reachable w -> 0 <= unqueued_tokens w p.
Proof.
  intros Hr. destruct (reachable_ginv w Hr) as [Hb _]. unfold unqueued_tokens, tokens_for. pose proof (binv_pool _ _ p Hb) as [B1 B2]. fold (pool_bal w p) in B1, B2.
  destruct (Z.eqb_spec (pb_shares (pool_bal w p)) 0); [lia|]. assert (pb_q4w (pool_bal w p) * pb_tokens (pool_bal w p) / pb_shares (pool_bal w p) <= pb_tokens (pool_bal w p)); [|lia].
  apply Z.div_le_upper_bound; [lia|]. apply Z.mul_le_mono_nonneg_r; lia.
Qed.
(** The parts of the pools of the reward zone together make up the whole, less at most one ten-millionth per pool. *)
Theorem C79_shares_complete : forall w, reachable w -> 0 < zone_tokens w ->
  10000000 - Z.of_nat (length (zone w)) < sumz (zone_share w) (zone w) <= 10000000.
Proof.
  intros w Hr Hz. destruct (shares_sum (unqueued_tokens w) (zone_tokens w) Hz (zone w)) as [[H1 H2] H3].
  assert (zone w <> []) as Hne. { intros E. unfold zone_tokens in Hz. rewrite E in Hz. cbn in Hz. lia. }
  specialize (H3 Hne). fold (zone_tokens w) in H1, H2, H3. change (sumz (fun p => unqueued_tokens w p * 10000000 / zone_tokens w) (zone w)) with (sumz (zone_share w) (zone w)) in *.
  generalize dependent (sumz (zone_share w) (zone w)). intros s. generalize dependent (Z.of_nat (length (zone w))). intros k. generalize dependent (zone_tokens w). intros. split; nia.
Qed.
(** A pool's part is its proportion of the zone's unqueued tokens, less than one ten-millionth too small; a pool whose deposits are all queued gets nothing. *)
Theorem C79_share_proportional : forall w p, reachable w -> 0 < zone_tokens w ->
  zone_share w p * zone_tokens w <= unqueued_tokens w p * 10000000 < (zone_share w p + 1) * zone_tokens w /\ 0 <= zone_share w p /\ (unqueued_tokens w p = 0 -> zone_share w p = 0).
Proof.
  intros w p Hr Hz. unfold zone_share. pose proof (unqueued_nonneg w p Hr) as Hu. pose proof (Z.mod_pos_bound (unqueued_tokens w p * 10000000) _ Hz) as B. rewrite Z.mod_eq in B by lia.
  split; [lia|]. split; [apply Z.div_pos; lia|]. intros ->. rewrite Z.mul_0_l. by apply Z.div_0_l, Z.neq_sym, Z.lt_neq.
Qed.
(** What a distribution of [n] BLND hands out in all: no more than [n], and all of it but one ten-millionth per pool of the zone plus two units per pool and two more for rounding. *)
Theorem C79_all_handed_out : forall w sg n w', reachable w -> exec w (OExt sg BGulp) = Ok (OutZ n, w') ->
  let k := Z.of_nat (length (zone w)) in
  let out := sumz (fun p => zone_share w p * (3 * n / 10) / 10000000 + zone_share w p * (7 * n / 10) / 10000000) (zone w) in
  out <= n /\ n * (10000000 - k) < 10000000 * (out + 2 * k + 2).
Proof.
  intros w sg n w' Hr E k out. destruct (C79_distribution_split w sg n w' Hr E) as (Hn & Hn1 & _ & Hz & _). pose proof (C79_shares_complete w Hr Hz) as Hs. fold k in Hs.
  assert (forall l s3 s7, 0 <= s3 -> 0 <= s7 -> (s3 + s7) * sumz (zone_share w) l - 20000000 * Z.of_nat (length l) <= 10000000 * sumz (fun p => zone_share w p * s3 / 10000000 + zone_share w p * s7 / 10000000) l <= (s3 + s7) * sumz (zone_share w) l) as Hl.
  { intros l s3 s7 H3 H7. induction l as [|p l IH]; [cbn; lia|]. rewrite !sumz_cons. cbn [length]. rewrite Nat2Z.inj_succ.
    pose proof (Z.mod_pos_bound (zone_share w p * s3) 10000000 ltac:(lia)) as B. rewrite Z.mod_eq in B by lia.
    pose proof (Z.mod_pos_bound (zone_share w p * s7) 10000000 ltac:(lia)) as C. rewrite Z.mod_eq in C by lia. lia. }
  assert (0 <= n) as Hn0 by lia.
  specialize (Hl (zone w) (3 * n / 10) (7 * n / 10) ltac:(apply Z.div_pos; lia) ltac:(apply Z.div_pos; lia)). fold out k in Hl.
  assert (n - 2 < 3 * n / 10 + 7 * n / 10 <= n) as Hd.
  { pose proof (Z.mod_pos_bound (3 * n) 10 ltac:(lia)) as B. rewrite Z.mod_eq in B by lia. pose proof (Z.mod_pos_bound (7 * n) 10 ltac:(lia)) as C. rewrite Z.mod_eq in C by lia. lia. }
  generalize dependent (3 * n / 10 + 7 * n / 10). intros s Hl Hd. generalize dependent (sumz (zone_share w) (zone w)). intros t Ht Hl. clearbody out.
  assert (0 <= k) by lia. clearbody k. split; nia.
Qed.
