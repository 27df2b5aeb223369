(** * What can happen to a backstop deposit that its owner does not touch (C81) *)
From Verif Require Import Base Types Token Emitter Factory Backstop PoolReserve PoolUser PoolHealth
  PoolAuction PoolSubmit PoolEmis PoolAdmin World Facts XMove Spec FrameFacts PoolFrame PoolCfg BackMoves BackInv BackEmis PoolTrace PoolInv PoolSim PoolReq PoolTx
  PropsEmitter PropsAdmin PropsAdmin2 PropsAdmin3 PropsBackstop PropsBackstop2 PropsBackstop5.

(** ** Specification *)
(** the shares of [u] at pool [p], queued for withdrawal or not *)
Definition stake (w : World) (p u : Addr) : Z := ub_shares (user_bal w p u) + queued_of w p u.
(** the LP tokens they are worth *)
Definition deposit_worth (w : World) (p u : Addr) : Z := stake w p u * pb_tokens (pool_bal w p) / pb_shares (pool_bal w p).
(** the transaction asks to fill a bad debt auction of pool [p] *)
Definition bad_debt_fill (p : Addr) (o : Op) : Prop :=
  exists sg from spender to qs q, o = OPool sg p (PSubmit from spender to qs) /\ q ∈ qs /\ rq_type q = 7.

(** ** Lemmas *)
Definition pge (x y : Ext) (p : Addr) : Prop :=
  0 < pb_shares (get_pb x p) -> pb_tokens (get_pb x p) * pb_shares (get_pb y p) <= pb_tokens (get_pb y p) * pb_shares (get_pb x p).
Lemma pge_same x y p : get_pb y p = get_pb x p -> pge x y p.
Proof. unfold pge. intros -> _. lia. Qed.
Lemma bmove_price c a x y p : bmove c a x y -> binv (c_now c) x -> (forall n, a <> ADrw p n) ->
  pge x y p /\ match a with AWd _ _ _ _ => True | _ => pb_shares (get_pb x p) <= pb_shares (get_pb y p) end.
Proof.
  intros [H _ _ _ _] Hb Hn. destruct (binv_pool _ _ p Hb) as [B1 B2]. pose proof (bi_pools _ _ Hb p) as [B3 _].
  destruct a; simpl in H.
  - destruct H as [_ H]. rewrite (get_pb_same _ _ _ H). split; [by apply pge_same, get_pb_same|lia].
  - destruct H as [_ H]. rewrite (get_pb_same _ _ _ H). split; [by apply pge_same, get_pb_same|lia].
  - destruct H as [[_ H] _]. rewrite (get_pb_same _ _ _ H). split; [by apply pge_same, get_pb_same|lia].
  - destruct H as (pb & ub & Ha & Hs & _ & Hd & _ & _ & Hp). unfold pge. rewrite (get_pb_upd _ _ _ _ _ Hp). destruct (Z.eqb_spec p0 p) as [->|]; [|lia].
    apply (to_shares_nonneg _ _ _ _ _ Hb Ha) in Hs as [Hm Hs]. apply pb_deposit_ok in Hd as ->. simpl. split; [|lia]. intros Hpos.
    destruct Hs as [[? _]|(_ & Ht & ->)]; [lia|]. assert (pb_tokens (get_pb x p) * (amt * pb_shares (get_pb x p) / pb_tokens (get_pb x p)) <= amt * pb_shares (get_pb x p)) by (by apply Z.mul_div_le). lia.
  - destruct H as (pb & ub & Ha & _ & Hq & _ & Hp). unfold pge. rewrite (get_pb_upd _ _ _ _ _ Hp). destruct (Z.eqb_spec p0 p) as [->|]; [|lia].
    apply pb_queue_ok in Hq as ->. simpl. lia.
  - destruct H as (pb & ub1 & ub & Ha & _ & _ & Hq & _ & Hp). unfold pge. rewrite (get_pb_upd _ _ _ _ _ Hp). destruct (Z.eqb_spec p0 p) as [->|]; [|lia].
    apply pb_dequeue_ok in Hq as (-> & _). simpl. lia.
  - split; [|done]. destruct H as (pb & ub & Ha & _ & Ht & _ & Hw & _ & Hp). unfold pge. rewrite (get_pb_upd _ _ _ _ _ Hp). destruct (Z.eqb_spec p0 p) as [->|]; [|lia].
    apply (to_tokens_nonneg _ _ _ _ _ Hb Ha) in Ht as [Hm Ht]. apply pb_withdraw_ok in Hw as (-> & _). simpl. intros Hpos.
    destruct Ht as [[? _]|(_ & ->)]; [lia|]. assert (pb_shares (get_pb x p) * (n * pb_tokens (get_pb x p) / pb_shares (get_pb x p)) <= n * pb_tokens (get_pb x p)) by (by apply Z.mul_div_le). lia.
  - destruct H as (pb & _ & _ & _ & Hp). unfold pge. rewrite (get_pb_upd _ _ _ _ _ Hp). destruct (Z.eqb_spec p0 p) as [->|]; [|lia]. by destruct (Hn n).
  - destruct H as (pb & Ha & Hd & _ & Hp). unfold pge. rewrite (get_pb_upd _ _ _ _ _ Hp). destruct (Z.eqb_spec p0 p) as [->|]; [|lia].
    apply pb_deposit_ok in Hd as ->. simpl. rewrite Z.add_0_r. split; [|lia]. intros Hpos. apply Z.mul_le_mono_nonneg_r; lia.
  - destruct H as (pb & ub & Ha & Hs & Hd & _ & _ & Hp). unfold pge. rewrite (get_pb_upd _ _ _ _ _ Hp). destruct (Z.eqb_spec p0 p) as [->|]; [|lia].
    apply (to_shares_nonneg _ _ _ _ _ Hb Ha) in Hs as [Hm' Hs]. apply pb_deposit_ok in Hd as ->. simpl. split; [|lia]. intros Hpos.
    destruct Hs as [[? _]|(_ & Ht & ->)]; [lia|]. assert (pb_tokens (get_pb x p) * (dep * pb_shares (get_pb x p) / pb_tokens (get_pb x p)) <= dep * pb_shares (get_pb x p)) by (by apply Z.mul_div_le). lia.
Qed.
Lemma price_trans tx ty tz sx sy sz : 0 < sx -> 0 < sy -> 0 <= sz -> tx * sy <= ty * sx -> ty * sz <= tz * sy -> tx * sz <= tz * sx.
Proof.
  intros H1 H2 H3 H4 H5. apply (Z.mul_le_mono_pos_l _ _ sy); [done|].
  assert (sz * (tx * sy) <= sz * (ty * sx)) by (by apply Z.mul_le_mono_nonneg_l). assert (sx * (ty * sz) <= sx * (tz * sy)) by (apply Z.mul_le_mono_nonneg_l; lia). lia.
Qed.
Lemma bmoves_price c l x y p : bmoves c l x y -> binv (c_now c) x -> Forall (fun a => (forall n, a <> ADrw p n) /\ (forall u q n r, a <> AWd u q n r)) l -> pge x y p /\ pb_shares (get_pb x p) <= pb_shares (get_pb y p).
Proof.
  induction 1 as [x|a l x y z Hm _ IH]; intros Hb Hf; [split; [by apply pge_same|lia]|]. apply Forall_cons in Hf as [[H1 H2] Hf].
  destruct (IH (bmove_binv _ _ _ _ Hm Hb) Hf) as [I1 I2]. destruct (bmove_price _ _ _ _ p Hm Hb H1) as [J1 J2].
  assert (pb_shares (get_pb x p) <= pb_shares (get_pb y p)) as J3 by (destruct a; first [exact J2|by edestruct H2]).
  split; [|lia]. unfold pge in *. intros Hpos. specialize (J1 Hpos). specialize (I1 ltac:(lia)).
  eapply price_trans; [..|exact J1|exact I1]; lia.
Qed.

(** a pool's calls do not touch its own balance at the backstop, except for the donation that pays for an interest auction and the draw that pays for a bad debt auction *)
Definition pgrow (x y : Ext) : Prop := forall p, exists n, 0 <= n /\ get_pb y p = mkPoolBal (pb_shares (get_pb x p)) (pb_tokens (get_pb x p) + n) (pb_q4w (get_pb x p)).
Lemma pgrow_refl x y : bs_pool (x_bs y) = bs_pool (x_bs x) -> pgrow x y.
Proof. intros H p. exists 0. split; [lia|]. rewrite (get_pb_same _ _ _ H), Z.add_0_r. by destruct (get_pb x p). Qed.
Lemma pgrow_trans x y z : pgrow x y -> pgrow y z -> pgrow x z.
Proof. intros H1 H2 p. destruct (H1 p) as (n & Hn & E). destruct (H2 p) as (m & Hm & F). exists (n + m). split; [lia|]. rewrite F, E. simpl. by rewrite Z.add_assoc. Qed.
Lemma donate_pgrow c x f p n x' : b_donate c x f p n = Ok x' -> pgrow x x'.
Proof.
  intros H. apply C39_donate in H as (_ & _ & Hn & H1 & H2). intros q. destruct (decide (q = p)) as [->|Hne]; [by exists n|].
  exists 0. split; [lia|]. rewrite H2 by done. rewrite Z.add_0_r. by destruct (get_pb x q).
Qed.
Lemma areqs_pgrow c self from s qs ls s' : areqs c self from s qs ls s' -> (forall q, q ∈ qs -> rq_type q <> 7) -> pgrow (as_x s) (as_x s').
Proof.
  induction 1 as [s|s q qs ls s1 ls' s2 _ _ Hq _ IH]; intros Hn; [by apply pgrow_refl|].
  eapply pgrow_trans; [|apply IH; intros q' Hq'; apply Hn; by right]. assert (rq_type q <> 7) as Hq7 by (apply Hn; left).
  destruct Hq; cbn [as_x]; try (by apply pgrow_refl).
  match goal with E : b_donate _ _ _ _ _ = Ok _ |- _ => apply donate_pgrow in E as Hg end. eapply pgrow_trans; [exact Hg|by apply pgrow_refl].
Qed.
Lemma pool_pgrow w sg a po out w' : reachable w -> exec w (OPool sg a po) = Ok (out, w') -> ~ bad_debt_fill a (OPool sg a po) -> pgrow (w_ext w) (w_ext w').
Proof.
  intros Hr H Hn.
  assert ((exists from spender to qs, po = PSubmit from spender to qs) \/ forall from spender to qs, po <> PSubmit from spender to qs) as [(from & spender & to & qs & ->)|Hns].
  { destruct po; first [left; by eauto|right; done]. }
  - apply submit_tx in H as (_ & _ & _ & _ & _ & _ & _ & _ & _ & ls & x1 & ac & chk & t1 & t2 & pos & _ & _ & Hqs & _ & _ & -> & _); [|done].
    eapply pgrow_trans; [|by apply pgrow_refl]. apply (areqs_pgrow _ _ _ _ _ _ _ Hqs). intros q Hq Ht. apply Hn. by exists sg, from, spender, to, qs, q.
  - apply exec_opool in H as (_ & _ & _ & px & H & _ & -> & _). apply pgrow_refl. clear Hn.
    destruct po; try (by destruct (Hns from spender to reqs)); simpl in H; unfold on_pool, ret_z in H; mon H; simpl; try done.
    + unfold p_gulp in E. apply bind_ok in E as ([n x] & E & E'). apply bind_ok in E' as (p1 & _ & E'). apply Ok_inj in E'. injection E' as _ <-. cbn [px_x].
      unfold to_backstop in E. apply assert_ok in E as [_ E]. cbn [px_x] in E. unfold b_gulp_pool in E. by mon E.
    + unfold p_claim in E. apply bind_ok in E as (? & _ & E). apply bind_ok in E as ([tot p1] & _ & E). destruct (0 <? tot).
      * apply bind_ok in E as (t & _ & E). apply Ok_inj in E. by injection E as _ <-.
      * apply Ok_inj in E. by injection E as _ <-.
Qed.

(** ** C81 *)
(** A transaction that [u] did not sign, and that fills no bad debt auction of pool [p], decreases neither [u]'s shares nor what they are worth. *)
Theorem C81_step : forall w o out w' p u,
  reachable w -> exec w o = Ok (out, w') -> ps_init (pool w p) = true -> u ∉ sig_of o -> ~ bad_debt_fill p o ->
  stake w p u <= stake w' p u /\ deposit_worth w p u <= deposit_worth w' p u.
Proof.
  intros w o out w' p u Hr H Hi Hu Hnf. pose proof (reachable_step _ _ _ _ Hr H) as Hr'.
  assert (stake w p u <= stake w' p u) as Hst.
  { destruct (Z.le_gt_cases (stake w p u) (stake w' p u)) as [|Hlt]; [done|]. exfalso. apply Hu. by apply (C42_total_decreases_only_by_withdraw w o out w' p u Hr H). }
  split; [done|]. pose proof (user_queued_le w p u Hr) as (U1 & U2 & U3 & _). pose proof (user_queued_le w' p u Hr') as (V1 & V2 & V3 & _).
  fold (stake w p u) in U3. fold (stake w' p u) in V3. unfold deposit_worth.
  pose proof (proj1 (bi_pools _ _ (reachable_binv w Hr) p)) as T0. pose proof (proj1 (bi_pools _ _ (reachable_binv w' Hr') p)) as T1. change (get_pb (w_ext w) p) with (pool_bal w p) in T0. change (get_pb (w_ext w') p) with (pool_bal w' p) in T1.
  assert (0 <= stake w p u) as S0 by (unfold stake; lia).
  destruct (Z.eq_dec (stake w p u) 0) as [Hz|Hz].
  { rewrite Hz, Z.mul_0_l, Zdiv_0_l. destruct (Z.eq_dec (pb_shares (pool_bal w' p)) 0) as [->|]; [by rewrite Zdiv_0_r|]. apply Z.div_pos; [apply Z.mul_nonneg_nonneg; lia|lia]. }
  assert (pge (w_ext w) (w_ext w') p) as Hp.
  { destruct (exec_acts _ _ _ _ H Hr) as (l & Hl & Ha). pose proof (reachable_binv w Hr) as Hb. change (w_now w) with (c_now (ctx w (sig_of o))) in Hb.
    assert (forall b, l = [b] -> (forall n, b <> ADrw p n) -> pge (w_ext w) (w_ext w') p) as H1.
    { intros b -> Hd. apply bmoves_inv1 in Hl. by apply (bmove_price _ _ _ _ p Hl Hb). }
    destruct o as [sg o|sg a o|sg ad sa orc ra mp|b|dt ds|orc|n|b t v|b r|]; simpl in Ha; try (by eapply H1).
    - destruct o; simpl in Ha; try (by eapply H1).
      + destruct Ha as (_ & _ & m & _ & ->). by eapply H1.
      + destruct Ha as (_ & ->). by eapply H1.
      + destruct Ha as (_ & ->). by eapply H1.
      + destruct Ha as (_ & r & _ & ->). by eapply H1.
      + destruct Ha as (Hin & ->). eapply H1; [done|]. intros n [= -> _]. unfold exec in H. apply assert_ok in H as [Hsg _]. apply andb_true_iff in Hsg as [Hsg _].
        apply (signer_pos _ _ Hsg) in Hin. unfold pool in Hi. destruct (w_pools w !! p) as [q|] eqn:Eq; [|done]. apply (pools_neg w Hr) in Eq. lia.
      + destruct Ha as (_ & _ & ->). by eapply H1.
      + destruct Ha as (_ & [->|(l' & -> & Hf & _)]); [by eapply H1|]. apply (bmoves_price _ _ _ _ p Hl Hb). constructor; [done|]. constructor; [done|].
        eapply Forall_impl; [exact Hf|]. by intros b (q & d & sh & -> & _).
    - destruct (decide (a = p)) as [->|Hne].
      + destruct (pool_pgrow _ _ _ _ _ _ Hr H Hnf p) as (n & Hn & E). unfold pge. rewrite E. simpl. intros Hpos. apply Z.mul_le_mono_nonneg_r; lia.
      + apply pge_same. exact (C41_other_pools_untouched w sg a o out w' p Hr H ltac:(done)). }
  unfold pge in Hp. change (get_pb (w_ext w) p) with (pool_bal w p) in Hp. change (get_pb (w_ext w') p) with (pool_bal w' p) in Hp. specialize (Hp ltac:(lia)).
  set (k := stake w p u) in *. set (k' := stake w' p u) in *. set (t := pb_tokens (pool_bal w p)) in *. set (t' := pb_tokens (pool_bal w' p)) in *.
  set (s := pb_shares (pool_bal w p)) in *. set (s' := pb_shares (pool_bal w' p)) in *. clearbody k k' t t' s s'. clear -Hst U3 V3 T0 T1 S0 Hz Hp.
  apply Z.div_le_lower_bound; [lia|].
  assert (s * (k * t / s) <= k * t) as Hd by (apply Z.mul_div_le; lia).
  assert (0 <= k * t / s) as Hd0 by (apply Z.div_pos; [apply Z.mul_nonneg_nonneg|]; lia). generalize dependent (k * t / s). intros v Hd Hd0.
  (* s * v <= k * t; t * s' <= t' * s; want s' * v <= k' * t' *)
  apply (Z.mul_le_mono_pos_l _ _ s); [lia|].
  assert (s' * (s * v) <= s' * (k * t)) by (apply Z.mul_le_mono_nonneg_l; lia). assert (k * (t * s') <= k * (t' * s)) by (apply Z.mul_le_mono_nonneg_l; lia).
  assert (k * (t' * s) <= k' * (t' * s)) by (apply Z.mul_le_mono_nonneg_r; [apply Z.mul_nonneg_nonneg|]; lia). lia.
Qed.

(** Over any history of such transactions the deposit keeps its worth: deposits lose only when the pool's bad debt is paid. *)
Theorem C81_deposits_lose_only_to_bad_debt : forall w l p u,
  reachable w -> ps_init (pool w p) = true -> (forall o, o ∈ l -> u ∉ sig_of o /\ ~ bad_debt_fill p o) ->
  stake w p u <= stake (run w l) p u /\ deposit_worth w p u <= deposit_worth (run w l) p u.
Proof.
  intros w l p u Hr Hi Hl. revert w Hr Hi. induction l as [|o l IH]; intros w Hr Hi; [simpl; lia|].
  assert (reachable (step w o) /\ stake w p u <= stake (step w o) p u /\ deposit_worth w p u <= deposit_worth (step w o) p u) as (E1 & E2 & E3).
  { unfold step. destruct (exec w o) as [[out w1]|e] eqn:E; [|split; [done|lia]]. split; [by eapply reachable_step|].
    destruct (Hl o ltac:(left)) as [H1 H2]. exact (C81_step w o out w1 p u Hr E Hi H1 H2). }
  pose proof (C61_initialized_once w [o]) as (_ & _ & _ & Hone). destruct (Hone p Hi) as (Hi1 & _). change (run w [o]) with (step w o) in Hi1.
  destruct (IH ltac:(intros o' Ho'; apply Hl; by right) (step w o) E1 Hi1) as [I1 I2]. change (run w (o :: l)) with (run (step w o) l). lia.
Qed.
