(** * Emissions are shared in proportion to balances: C75 *)
From Verif Require Import Base Types Token Emitter Factory Backstop PoolReserve PoolUser PoolHealth
  PoolAuction PoolSubmit PoolEmis PoolAdmin World Facts XMove Spec FrameFacts PoolFrame PoolCfg PoolAccrue PoolTrace PoolInv AuctionFacts
  PoolSim PoolReq PoolHF PoolOps PoolLiq PoolReach PoolTx PoolEmisInv PoolEmisTx PropsAdmin PropsBackstop PropsPool10 PoolLive.

(** ** Observers *)
(** seconds of the stream of token [id] that lie between two times *)
Definition stream_time (cfg : EmisConfig) (t t' : Z) : Z := Z.max 0 (Z.min (ec_exp cfg) t' - t).
Lemma stream_time_add cfg t t' t'' : t <= t' <= t'' -> stream_time cfg t t'' = stream_time cfg t t' + stream_time cfg t' t''.
Proof. unfold stream_time. lia. Qed.
Lemma stream_time_nonneg cfg t t' : 0 <= stream_time cfg t t'. Proof. unfold stream_time. lia. Qed.

(** arithmetic: floors *)
Lemma floor_diff x y d : 0 < d -> y - x - d < d * (y / d - x / d) < y - x + d.
Proof. intros Hd. pose proof (Z.mul_div_le x d Hd). pose proof (Z.mul_succ_div_gt x d Hd). pose proof (Z.mul_div_le y d Hd). pose proof (Z.mul_succ_div_gt y d Hd). lia. Qed.

Lemma index_grows now now' p id cfg : good p -> emis_ok now p -> now <= now' -> ps_ecfg p !! id = Some cfg -> tok_supply p id <> 0 ->
  let I := index_at now' p id - index_at now p id in
  0 <= I /\ 0 < tok_supply p id /\
  stream_time cfg now now' * ec_eps cfg * tok_unit p id - tok_supply p id < tok_supply p id * I < stream_time cfg now now' * ec_eps cfg * tok_unit p id + tok_supply p id.
Proof.
  intros G K Hle Hc Hs. cbv zeta. destruct (eo_eps _ _ K _ _ Hc) as (Heps & Ha & [d Hd]). destruct (eo_idx _ _ K _ _ Hd) as [_ Hl].
  pose proof (tok_list p id [] G Ha ltac:(constructor)) as H0. rewrite sumz_nil in H0. assert (0 < tok_supply p id) as Hp by lia.
  pose proof (tok_unit_pos p id G) as Hu. unfold index_at. rewrite Hc, Hd. rewrite (proj2 (Z.eqb_neq _ _) Hs).
  set (D1 := Z.max 0 (Z.min (ec_exp cfg) now - ed_last d)). set (D2 := Z.max 0 (Z.min (ec_exp cfg) now' - ed_last d)).
  assert (stream_time cfg now now' = D2 - D1) as HT by (unfold stream_time, D1, D2; lia).
  pose proof (floor_diff (D1 * ec_eps cfg * tok_unit p id) (D2 * ec_eps cfg * tok_unit p id) (tok_supply p id) Hp) as Hf.
  assert (D1 <= D2) as HD by (unfold D1, D2; lia).
  assert (D1 * ec_eps cfg * tok_unit p id / tok_supply p id <= D2 * ec_eps cfg * tok_unit p id / tok_supply p id) as Hm.
  { apply Z.div_le_mono; [done|]. apply Z.mul_le_mono_nonneg_r; [lia|]. apply Z.mul_le_mono_nonneg_r; lia. }
  split; [lia|]. split; [done|].
  assert ((D2 - D1) * ec_eps cfg * tok_unit p id = D2 * ec_eps cfg * tok_unit p id - D1 * ec_eps cfg * tok_unit p id) as HE by ring.
  rewrite HT, HE. split; [|]; lia.
Qed.
(** what [u] earns on [id] while the time goes from [now] to [now'] and the pool is not used *)
Lemma time_pays now now' p id cfg u : good p -> emis_ok now p -> now <= now' -> ps_ecfg p !! id = Some cfg -> tok_supply p id <> 0 ->
  let e := claimable now' p u id - claimable now p u id in
  let S := tok_supply p id in let b := tok_bal p u id in let unit := tok_unit p id in let T := stream_time cfg now now' in
  0 <= e /\ b * (ec_eps cfg * T) * unit - S * (b + unit) < e * S * unit < b * (ec_eps cfg * T) * unit + S * (b + unit).
Proof.
  intros G K Hle Hc Hs. cbv zeta. destruct (index_grows now now' p id cfg G K Hle Hc Hs) as (I0 & Hp & I1). cbv zeta in *.
  pose proof (tok_unit_pos p id G) as Hu. pose proof (tok_bal_nonneg p u id G) as Hb.
  set (I := index_at now' p id - index_at now p id) in *. set (S := tok_supply p id) in *. set (b := tok_bal p u id) in *. set (un := tok_unit p id) in *.
  set (x := b * (index_at now p id - puidx p u id)).
  assert (b * (index_at now' p id - puidx p u id) = x + b * I) as Hx by (unfold x, I; ring).
  assert (claimable now' p u id - claimable now p u id = (x + b * I) / un - x / un) as -> by (unfold claimable; fold b un; rewrite Hx; fold x; lia).
  pose proof (floor_diff x (x + b * I) un Hu) as Hf. assert (0 <= b * I) as HbI by (by apply Z.mul_nonneg_nonneg).
  assert (x / un <= (x + b * I) / un) by (apply Z.div_le_mono; lia). split; [lia|].
  set (e := (x + b * I) / un - x / un) in *. set (E := stream_time cfg now now' * ec_eps cfg) in *.
  assert (b * (ec_eps cfg * stream_time cfg now now') * un = b * (E * un)) as -> by (unfold E; ring).
  assert (b * I - un < un * e < b * I + un) as [F1 F2] by lia. clear Hf.
  assert (b * (E * un) - b * S <= b * (S * I) <= b * (E * un) + b * S) as [J1 J2].
  { destruct I1 as [I1 I2]. rewrite <- Z.mul_sub_distr_l, <- Z.mul_add_distr_l. split; apply Z.mul_le_mono_nonneg_l; lia. }
  assert (S * (b * I - un) < S * (un * e)) as L1 by (apply Z.mul_lt_mono_pos_l; lia).
  assert (S * (un * e) < S * (b * I + un)) as L2 by (apply Z.mul_lt_mono_pos_l; lia).
  rewrite Z.mul_sub_distr_l in L1. rewrite Z.mul_add_distr_l in L2.
  assert (S * (b * I) = b * (S * I)) as HX by ring. assert (e * S * un = S * (un * e)) as -> by ring. rewrite Z.mul_add_distr_l.
  assert (S * b = b * S) by ring. lia.
Qed.

(** ** C75: one tick of the clock *)
(** While time passes a holder of a token earns his share of the stream, exact up to (his whole tokens + 1) of the smallest units of BLND. *)
Theorem C75_time_pays_in_proportion : forall w dt ds out w' a id u cfg,
  reachable w -> exec w (OTick dt ds) = Ok (out, w') -> ps_init (pool w a) = true ->
  ps_ecfg (pool w a) !! id = Some cfg -> tok_supply (pool w a) id <> 0 ->
  let e := claimable (w_now w') (pool w' a) u id - claimable (w_now w) (pool w a) u id in
  let S := tok_supply (pool w a) id in let b := tok_bal (pool w a) u id in let unit := tok_unit (pool w a) id in
  let T := stream_time cfg (w_now w) (w_now w') in
  0 <= e /\ b * (ec_eps cfg * T) * unit - S * (b + unit) < e * S * unit < b * (ec_eps cfg * T) * unit + S * (b + unit).
Proof.
  intros w dt ds out w' a id u cfg Hr E Hi Hc Hs. pose proof (exec_now _ _ _ _ E) as Hn. pose proof (reachable_good _ a Hr Hi) as G. pose proof (reachable_emis _ a Hr) as K.
  assert (pool w' a = pool w a) as ->. { simpl in E. mon E. by subst. }
  by apply time_pays.
Qed.

(** ** C75: a history *)
(** in a state: [u] holds [b] of a supply of [S] of token [id] (whose unit is [un]), which gets the stream [cfg] *)
Definition steady (a id : Z) (u : Addr) (S b un : Z) (cfg : EmisConfig) (w : World) : Prop :=
  ps_init (pool w a) = true /\ tok_supply (pool w a) id = S /\ tok_bal (pool w a) u id = b /\ tok_unit (pool w a) id = un /\
  ps_ecfg (pool w a) !! id = Some cfg.
(** every state of the history, the first and the last included *)
Fixpoint always (P : World -> Prop) (w : World) (l : list Op) : Prop :=
  P w /\ match l with [] => True | o :: l => always P (step w o) l end.
Definition is_tick (o : Op) : Z := match o with OTick _ _ => 1 | _ => 0 end.
Definition ticks (l : list Op) : Z := sumz is_tick l.

Lemma always_head P w l : always P w l -> P w. Proof. destruct l; simpl; tauto. Qed.
Lemma ticks_cons o l : ticks (o :: l) = is_tick o + ticks l. Proof. done. Qed.
Lemma exec_clock w o out w' : exec w o = Ok (out, w') -> (forall dt ds, o <> OTick dt ds) -> w_now w' = w_now w.
Proof.
  intros E Ht. destruct o; try (by exfalso; eapply Ht). all: unfold exec in E; mon E; simpl; try done.
  all: try (destruct (w_pools w !! _); mon E; done).
Qed.

(** one step of a steady history *)
Lemma steady_step a id u S b un cfg w o : reachable w -> 0 < S -> steady a id u S b un cfg w -> steady a id u S b un cfg (step w o) -> ~ is_claim a u id o ->
  w_now w <= w_now (step w o) /\
  let e := claimable (w_now (step w o)) (pool (step w o) a) u id - claimable (w_now w) (pool w a) u id in
  let T := stream_time cfg (w_now w) (w_now (step w o)) in
  0 <= e /\ b * (ec_eps cfg * T) * un - is_tick o * (S * (b + un)) <= e * S * un <= b * (ec_eps cfg * T) * un + is_tick o * (S * (b + un)).
Proof.
  intros Hr HS St St' Hcl. destruct St as (Hi & Hs & Hb & Hu & Hc).
  assert (0 <= b) as Hb0. { rewrite <- Hb. apply tok_bal_nonneg. by apply reachable_good. }
  assert (0 < un) as Hu0. { rewrite <- Hu. apply tok_unit_pos. by apply reachable_good. }
  assert (0 <= is_tick o * (S * (b + un))) as H0. { apply Z.mul_nonneg_nonneg; [by destruct o|]. apply Z.mul_nonneg_nonneg; lia. }
  assert (forall t, stream_time cfg t t = 0) as Hz by (intros; unfold stream_time; lia).
  clear St'. cbv zeta. unfold step. destruct (exec w o) as [[out w']|e] eqn:E.
  2:{ split; [lia|]. rewrite Hz. lia. }
  pose proof (exec_now _ _ _ _ E) as Hn. split; [done|].
  destruct (is_tick o =? 1) eqn:Et.
  - destruct o; try discriminate. pose proof (C75_time_pays_in_proportion w dt dseq out w' a id u cfg Hr E Hi Hc ltac:(lia)) as A. cbv zeta in A.
    rewrite Hs, Hb, Hu in A. unfold is_tick. lia.
  - assert (is_tick o = 0) as -> by (by destruct o). assert (w_now w' = w_now w) as Hn'. { eapply exec_clock; [done|]. by intros dt ds ->. }
    destruct (C34_others_untouched w o a u id out w' Hr Hi E Hcl) as [_ A]. rewrite A by (try done; lia). rewrite Hn', Hz. lia.
Qed.

(** While a holder's balance, the supply and the stream stay the same, whatever calls are made by anyone meanwhile, he earns his share
    [b / S] of what the stream releases - in units of 1e-7 BLND - with an error below (his whole tokens + 1) units for every tick of the clock. *)
Theorem C75_emissions_in_proportion : forall w l a id u S b un cfg,
  reachable w -> 0 < S -> always (steady a id u S b un cfg) w l -> (forall o, o ∈ l -> ~ is_claim a u id o) ->
  let earned := claimable (w_now (run w l)) (pool (run w l) a) u id - claimable (w_now w) (pool w a) u id in
  let released := ec_eps cfg * stream_time cfg (w_now w) (w_now (run w l)) in
  0 <= earned /\ b * released * un - ticks l * (S * (b + un)) <= earned * S * un <= b * released * un + ticks l * (S * (b + un)).
Proof.
  intros w l a id u S b un cfg Hr HS Hal Hcl. cbv zeta.
  assert (w_now w <= w_now (run w l) /\ 0 <= claimable (w_now (run w l)) (pool (run w l) a) u id - claimable (w_now w) (pool w a) u id /\
    b * (ec_eps cfg * stream_time cfg (w_now w) (w_now (run w l))) * un - ticks l * (S * (b + un)) <=
    (claimable (w_now (run w l)) (pool (run w l) a) u id - claimable (w_now w) (pool w a) u id) * S * un <=
    b * (ec_eps cfg * stream_time cfg (w_now w) (w_now (run w l))) * un + ticks l * (S * (b + un))) as [_ H]; [|exact H].
  revert w Hr Hal. induction l as [|o l IH]; intros w Hr Hal.
  - change (run w []) with w. change (ticks []) with 0. assert (stream_time cfg (w_now w) (w_now w) = 0) as -> by (unfold stream_time; lia). lia.
  - destruct Hal as [St Hal]. change (run w (o :: l)) with (run (step w o) l).
    assert (reachable (step w o)) as Hr1. { unfold step. destruct (exec w o) as [[? ?]|] eqn:E; [|done]. by eapply reachable_step. }
    destruct (steady_step a id u S b un cfg w o Hr HS St (always_head _ _ _ Hal) ltac:(apply Hcl; by left)) as (N1 & A1 & A2). cbv zeta in A1, A2.
    destruct (IH ltac:(intros; apply Hcl; by right) _ Hr1 Hal) as (N2 & B1 & B2).
    rewrite ticks_cons. rewrite (stream_time_add cfg (w_now w) (w_now (step w o)) _) by lia.
    set (c0 := claimable (w_now w) (pool w a) u id) in *. set (c1 := claimable (w_now (step w o)) (pool (step w o) a) u id) in *.
    set (c2 := claimable (w_now (run (step w o) l)) (pool (run (step w o) l) a) u id) in *.
    set (T1 := stream_time cfg (w_now w) (w_now (step w o))) in *. set (T2 := stream_time cfg (w_now (step w o)) (w_now (run (step w o) l))) in *.
    split; [lia|]. split; [lia|]. assert ((c2 - c0) * S * un = (c1 - c0) * S * un + (c2 - c1) * S * un) as -> by ring.
    assert (b * (ec_eps cfg * (T1 + T2)) * un = b * (ec_eps cfg * T1) * un + b * (ec_eps cfg * T2) * un) as -> by ring.
    rewrite Z.mul_add_distr_r. lia.
Qed.

(** ** C75, the restriction: the error is per tick, and it can be all there is *)
(** When the stream was settled at the present moment (someone just used the reserve) and a tick releases less than one unit per whole
    token of the supply, nobody earns anything. *)
Theorem C75_small_ticks_pay_nobody : forall w dt ds out w' a id cfg d,
  reachable w -> exec w (OTick dt ds) = Ok (out, w') -> ps_init (pool w a) = true ->
  ps_ecfg (pool w a) !! id = Some cfg -> ps_edata (pool w a) !! id = Some d -> ed_last d = w_now w ->
  dt * ec_eps cfg * tok_unit (pool w a) id < tok_supply (pool w a) id ->
  forall u, claimable (w_now w') (pool w' a) u id = claimable (w_now w) (pool w a) u id.
Proof.
  intros w dt ds out w' a id cfg d Hr E Hi Hc Hd Hl Hsm u. pose proof (exec_now _ _ _ _ E) as Hn. pose proof (reachable_good _ a Hr Hi) as G. pose proof (reachable_emis _ a Hr) as K.
  assert (pool w' a = pool w a /\ w_now w' = w_now w + dt) as [-> Hn'].
  { simpl in E. mon E. subst. done. }
  destruct (eo_eps _ _ K _ _ Hc) as (Heps & _). pose proof (tok_unit_pos (pool w a) id G) as Hu.
  assert (0 < tok_supply (pool w a) id) as Hp. { assert (0 <= dt * ec_eps cfg * tok_unit (pool w a) id); [|lia]. apply Z.mul_nonneg_nonneg; [|lia]. apply Z.mul_nonneg_nonneg; lia. }
  unfold claimable. enough (index_at (w_now w') (pool w a) id = index_at (w_now w) (pool w a) id) as -> by done.
  unfold index_at. rewrite Hc, Hd. rewrite (proj2 (Z.eqb_neq _ _)) by lia. f_equal. rewrite Hl. rewrite Hn'.
  assert (Z.max 0 (Z.min (ec_exp cfg) (w_now w) - w_now w) = 0) as -> by lia. rewrite !Z.mul_0_l, Zdiv_0_l.
  set (D := Z.max 0 (Z.min (ec_exp cfg) (w_now w + dt) - w_now w)). assert (0 <= D <= dt) as HD by lia.
  apply Z.div_small. split. { apply Z.mul_nonneg_nonneg; [|lia]. apply Z.mul_nonneg_nonneg; lia. }
  assert (D * ec_eps cfg * tok_unit (pool w a) id <= dt * ec_eps cfg * tok_unit (pool w a) id); [|lia].
  apply Z.mul_le_mono_nonneg_r; [lia|]. apply Z.mul_le_mono_nonneg_r; lia.
Qed.
