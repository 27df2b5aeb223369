(** * Backstop emissions are shared in proportion to the shares that are not queued: C77 *)
From Verif Require Import Base Types Token Emitter Factory Backstop PoolReserve PoolUser PoolHealth
  PoolAuction PoolSubmit PoolEmis PoolAdmin World Facts XMove Spec FrameFacts PoolFrame PoolCfg BackMoves BackInv BackEmis PropsAdmin PropsBackstop PropsBackstop5 PropsBackstop10
  PropsPool34.

Lemma bindex_grows now now' x p cfg : binv now x -> einv now x -> iinv x -> now <= now' -> bs_ecfg (x_bs x) !! p = Some cfg -> free_shares x p <> 0 ->
  let I := bindex_at now' x p - bindex_at now x p in let S := free_shares x p in
  0 <= I /\ 0 < S /\ stream_time cfg now now' * ec_eps cfg * 10000000 - S < S * I < stream_time cfg now now' * ec_eps cfg * 10000000 + S.
Proof.
  intros Hb (He & _ & Ht) (_ & _ & I3) Hle Hc Hs. cbv zeta. destruct (I3 _ _ Hc) as [d Hd]. pose proof (Ht _ _ Hd) as Hl.
  assert (0 < free_shares x p) as Hp. { destruct (binv_pool _ _ p Hb) as [? _]. unfold free_shares in *. lia. }
  assert (0 <= ec_eps cfg) as Heps by (by eapply He).
  unfold bindex_at. rewrite Hc, Hd. rewrite (proj2 (Z.eqb_neq _ _) Hs). generalize dependent (free_shares x p). intros S _ Hp.
  set (D1 := Z.max 0 (Z.min (ec_exp cfg) now - ed_last d)). set (D2 := Z.max 0 (Z.min (ec_exp cfg) now' - ed_last d)).
  assert (stream_time cfg now now' = D2 - D1) as HT by (unfold stream_time, D1, D2; lia).
  pose proof (floor_diff (D1 * ec_eps cfg * 10000000) (D2 * ec_eps cfg * 10000000) S Hp) as Hf.
  assert (D1 <= D2) as HD by (unfold D1, D2; lia).
  assert (D1 * ec_eps cfg * 10000000 / S <= D2 * ec_eps cfg * 10000000 / S) as Hm.
  { apply Z.div_le_mono; [done|]. apply Z.mul_le_mono_nonneg_r; [lia|]. apply Z.mul_le_mono_nonneg_r; lia. }
  split; [lia|]. split; [done|].
  assert ((D2 - D1) * ec_eps cfg * 10000000 = D2 * ec_eps cfg * 10000000 - D1 * ec_eps cfg * 10000000) as HE by ring.
  rewrite HT, HE. split; lia.
Qed.
Lemma time_pays_back now now' x p cfg u : binv now x -> einv now x -> iinv x -> now <= now' -> bs_ecfg (x_bs x) !! p = Some cfg -> free_shares x p <> 0 ->
  let e := bclaimable now' x p u - bclaimable now x p u in
  let S := free_shares x p in let b := ub_shares (get_ub x p u) in let T := stream_time cfg now now' in
  0 <= e /\ b * (ec_eps cfg * T) * 10000000 - S * (b + 10000000) < e * S * 10000000 < b * (ec_eps cfg * T) * 10000000 + S * (b + 10000000).
Proof.
  intros Hbi He Ii Hle Hc Hs. cbv zeta. destruct (bindex_grows now now' x p cfg Hbi He Ii Hle Hc Hs) as (I0 & Hp & I1). cbv zeta in *.
  pose proof (users_get x p u (binv_users _ _ Hbi)) as Hb.
  set (I := bindex_at now' x p - bindex_at now x p) in *. set (S := free_shares x p) in *. set (b := ub_shares (get_ub x p u)) in *. set (un := 10000000) in *. assert (0 < un) as Hu by done.
  set (y := b * (bindex_at now x p - buidx x p u)).
  assert (b * (bindex_at now' x p - buidx x p u) = y + b * I) as Hx by (unfold y, I; ring).
  assert (bclaimable now' x p u - bclaimable now x p u = (y + b * I) / un - y / un) as -> by (unfold bclaimable; fold b; fold un; rewrite Hx; fold y; lia).
  pose proof (floor_diff y (y + b * I) un Hu) as Hf. assert (0 <= b * I) as HbI by (by apply Z.mul_nonneg_nonneg).
  assert (y / un <= (y + b * I) / un) by (apply Z.div_le_mono; lia). split; [lia|].
  set (e := (y + b * I) / un - y / un) in *. set (E := stream_time cfg now now' * ec_eps cfg) in *.
  assert (b * (ec_eps cfg * stream_time cfg now now') * un = b * (E * un)) as -> by (unfold E; ring).
  assert (b * I - un < un * e < b * I + un) as [F1 F2] by lia. clear Hf. clearbody un e E I S b.
  assert (b * (E * un) - b * S <= b * (S * I) <= b * (E * un) + b * S) as [J1 J2].
  { destruct I1 as [I1 I2]. rewrite <- Z.mul_sub_distr_l, <- Z.mul_add_distr_l. split; apply Z.mul_le_mono_nonneg_l; lia. }
  assert (S * (b * I - un) < S * (un * e)) as L1 by (apply Z.mul_lt_mono_pos_l; lia).
  assert (S * (un * e) < S * (b * I + un)) as L2 by (apply Z.mul_lt_mono_pos_l; lia).
  rewrite Z.mul_sub_distr_l in L1. rewrite Z.mul_add_distr_l in L2.
  assert (S * (b * I) = b * (S * I)) as HX by ring. assert (e * S * un = S * (un * e)) as -> by ring. rewrite Z.mul_add_distr_l.
  assert (S * b = b * S) by ring. lia.
Qed.

(** ** C77: a history *)
(** in a state: [u] holds [b] of [S] unqueued shares of pool [p], whose depositors get the stream [cfg] *)
Definition bsteady (p u : Addr) (S b : Z) (cfg : EmisConfig) (w : World) : Prop :=
  free_shares (w_ext w) p = S /\ ub_shares (get_ub (w_ext w) p u) = b /\ bs_ecfg (x_bs (w_ext w)) !! p = Some cfg.

Lemma bsteady_step p u S b cfg w o : reachable w -> 0 < S -> bsteady p u S b cfg w -> ~ is_bclaim p u o -> ~ credits u o ->
  w_now w <= w_now (step w o) /\
  let e := bclaimable (w_now (step w o)) (w_ext (step w o)) p u - bclaimable (w_now w) (w_ext w) p u in
  let T := stream_time cfg (w_now w) (w_now (step w o)) in
  0 <= e /\ b * (ec_eps cfg * T) * 10000000 - is_tick o * (S * (b + 10000000)) <= e * S * 10000000 <= b * (ec_eps cfg * T) * 10000000 + is_tick o * (S * (b + 10000000)).
Proof.
  intros Hr HS (Hs & Hb & Hc) Hcl Hcr. destruct (reachable_ginv w Hr) as [Hbi He]. pose proof (reachable_iinv w Hr) as I.
  assert (0 <= b) as Hb0. { rewrite <- Hb. apply users_get. by eapply binv_users. }
  assert (0 <= is_tick o * (S * (b + 10000000))) as H0. { apply Z.mul_nonneg_nonneg; [by destruct o|]. apply Z.mul_nonneg_nonneg; lia. }
  assert (forall t, stream_time cfg t t = 0) as Hz by (intros; unfold stream_time; lia).
  cbv zeta. unfold step. destruct (exec w o) as [[out w']|e] eqn:E.
  2:{ split; [lia|]. rewrite Hz. lia. }
  pose proof (exec_now _ _ _ _ E) as Hn. split; [done|].
  destruct (is_tick o =? 1) eqn:Et.
  - destruct o; try discriminate. assert (w_ext w' = w_ext w) as ->. { simpl in E. mon E. done. }
    pose proof (time_pays_back (w_now w) (w_now w') (w_ext w) p cfg u Hbi He I Hn Hc ltac:(lia)) as A. cbv zeta in A. rewrite Hs, Hb in A. unfold is_tick. lia.
  - assert (is_tick o = 0) as -> by (by destruct o). assert (w_now w' = w_now w) as Hn'. { eapply exec_clock; [done|]. by intros dt ds ->. }
    destruct (C76_others_untouched w o p u out w' Hr E Hcl) as [_ A]. rewrite A by (try done; lia). rewrite Hn', Hz. lia.
Qed.

(** While a depositor's unqueued shares, the total of unqueued shares and the stream stay the same, whatever calls are made meanwhile, he earns
    his share [b / S] of what the stream releases, with an error below (his whole shares + 1) units of 1e-7 BLND for every tick of the clock. *)
Theorem C77_backstop_emissions_in_proportion : forall w l p u S b cfg,
  reachable w -> 0 < S -> always (bsteady p u S b cfg) w l -> (forall o, o ∈ l -> ~ is_bclaim p u o /\ ~ credits u o) ->
  let earned := bclaimable (w_now (run w l)) (w_ext (run w l)) p u - bclaimable (w_now w) (w_ext w) p u in
  let released := ec_eps cfg * stream_time cfg (w_now w) (w_now (run w l)) in
  0 <= earned /\ b * released * 10000000 - ticks l * (S * (b + 10000000)) <= earned * S * 10000000 <= b * released * 10000000 + ticks l * (S * (b + 10000000)).
Proof.
  intros w l p u S b cfg Hr HS Hal Hcl. cbv zeta.
  assert (w_now w <= w_now (run w l) /\ 0 <= bclaimable (w_now (run w l)) (w_ext (run w l)) p u - bclaimable (w_now w) (w_ext w) p u /\
    b * (ec_eps cfg * stream_time cfg (w_now w) (w_now (run w l))) * 10000000 - ticks l * (S * (b + 10000000)) <=
    (bclaimable (w_now (run w l)) (w_ext (run w l)) p u - bclaimable (w_now w) (w_ext w) p u) * S * 10000000 <=
    b * (ec_eps cfg * stream_time cfg (w_now w) (w_now (run w l))) * 10000000 + ticks l * (S * (b + 10000000))) as [_ H]; [|exact H].
  revert w Hr Hal. induction l as [|o l IH]; intros w Hr Hal.
  - change (run w []) with w. change (ticks []) with 0. assert (stream_time cfg (w_now w) (w_now w) = 0) as -> by (unfold stream_time; lia). lia.
  - destruct Hal as [St Hal]. change (run w (o :: l)) with (run (step w o) l).
    assert (reachable (step w o)) as Hr1. { unfold step. destruct (exec w o) as [[? ?]|] eqn:E; [|done]. by eapply reachable_step. }
    destruct (Hcl o ltac:(by left)) as [Hc1 Hc2].
    destruct (bsteady_step p u S b cfg w o Hr HS St Hc1 Hc2) as (N1 & A1 & A2). cbv zeta in A1, A2.
    destruct (IH ltac:(intros; apply Hcl; by right) _ Hr1 Hal) as (N2 & B1 & B2).
    rewrite ticks_cons. rewrite (stream_time_add cfg (w_now w) (w_now (step w o)) _) by lia.
    set (c0 := bclaimable (w_now w) (w_ext w) p u) in *. set (c1 := bclaimable (w_now (step w o)) (w_ext (step w o)) p u) in *.
    set (c2 := bclaimable (w_now (run (step w o) l)) (w_ext (run (step w o) l)) p u) in *.
    set (T1 := stream_time cfg (w_now w) (w_now (step w o))) in *. set (T2 := stream_time cfg (w_now (step w o)) (w_now (run (step w o) l))) in *.
    split; [lia|]. split; [lia|]. assert ((c2 - c0) * S * 10000000 = (c1 - c0) * S * 10000000 + (c2 - c1) * S * 10000000) as -> by ring.
    assert (b * (ec_eps cfg * (T1 + T2)) * 10000000 = b * (ec_eps cfg * T1) * 10000000 + b * (ec_eps cfg * T2) * 10000000) as -> by ring.
    rewrite Z.mul_add_distr_r. lia.
Qed.

(** ** C77, the restriction *)
(** When the stream was settled at the present moment and a tick releases less than one unit per whole unqueued share, nobody earns anything. *)
Theorem C77_small_ticks_pay_nobody : forall w dt ds out w' p cfg d,
  reachable w -> exec w (OTick dt ds) = Ok (out, w') ->
  bs_ecfg (x_bs (w_ext w)) !! p = Some cfg -> bs_edata (x_bs (w_ext w)) !! p = Some d -> ed_last d = w_now w ->
  dt * ec_eps cfg * 10000000 < free_shares (w_ext w) p ->
  forall u, bclaimable (w_now w') (w_ext w') p u = bclaimable (w_now w) (w_ext w) p u.
Proof.
  intros w dt ds out w' p cfg d Hr E Hc Hd Hl Hsm u. pose proof (exec_now _ _ _ _ E) as Hn. destruct (reachable_ginv w Hr) as [Hbi (He & _)].
  assert (w_ext w' = w_ext w /\ w_now w' = w_now w + dt) as [-> Hn']. { simpl in E. mon E. done. }
  assert (0 <= ec_eps cfg) as Heps by (by eapply He).
  assert (0 < free_shares (w_ext w) p) as Hp. { assert (0 <= dt * ec_eps cfg * 10000000); [|lia]. apply Z.mul_nonneg_nonneg; [|lia]. apply Z.mul_nonneg_nonneg; lia. }
  unfold bclaimable. enough (bindex_at (w_now w') (w_ext w) p = bindex_at (w_now w) (w_ext w) p) as -> by done.
  unfold bindex_at. rewrite Hc, Hd. rewrite (proj2 (Z.eqb_neq _ _)) by lia. f_equal. rewrite Hl, Hn'.
  assert (Z.max 0 (Z.min (ec_exp cfg) (w_now w) - w_now w) = 0) as -> by lia. rewrite !Z.mul_0_l, Zdiv_0_l.
  set (D := Z.max 0 (Z.min (ec_exp cfg) (w_now w + dt) - w_now w)). assert (0 <= D <= dt) as HD by lia.
  apply Z.div_small. split. { apply Z.mul_nonneg_nonneg; [|lia]. apply Z.mul_nonneg_nonneg; lia. }
  assert (D * ec_eps cfg * 10000000 <= dt * ec_eps cfg * 10000000); [|lia].
  apply Z.mul_le_mono_nonneg_r; [lia|]. apply Z.mul_le_mono_nonneg_r; lia.
Qed.
