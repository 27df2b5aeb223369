(** * C86, continued: without payments, an unfillable interest auction expires *)
From Verif Require Import Base Types Token Emitter Factory Backstop PoolReserve PoolUser PoolHealth
  PoolAuction PoolSubmit PoolEmis PoolAdmin World Facts XMove Spec FrameFacts PoolFrame PoolCfg PropsEmitter PropsAdmin BackMoves PropsBackstop PropsBackstop5 PropsAdmin2 PropsAdmin3 PropsPool3 PropsPool4 PropsPool9 Ttl PropsTtl.

(** ** An unfillable interest auction goes in the end, unless somebody pays to keep it *)
Lemma new_interest_free w sg a assets u au : reachable w -> auction w a 2 u = Some au -> ~ succeeds w (OPool sg a (PNewInterest assets)).
Proof.
  intros Hr Hau (out & w2 & E). destruct (reachable_auct _ a Hr 2 u au ltac:(lia) Hau) as [Hi Hu].
  unfold exec in E. mon1 E. apply bind_ok in E as (p & Ep & E).
  destruct (w_pools w !! a) as [p0|] eqn:Ep'; [|discriminate]. injection Ep as ->.
  assert (pool w a = p) as Hp by (unfold pool; by rewrite Ep'). unfold auction in Hau. rewrite Hp in *.
  unfold p_exec in E. cbn [px_p px_x] in E. rewrite Hi in E. cbn in E. unfold create_interest in E.
  unfold has_auction in E. rewrite <- Hu, Hau in E. rewrite bool_decide_true in E by done. discriminate.
Qed.
Definition BUMP : Z := LEDGER_BUMP_SHARED.
(** upper bounds of lifetimes while nobody pays *)
Definition short_inv (s : World * Ttl) : Prop :=
  1 <= tt_min s.2 <= BUMP /\ (forall a ty u l, tt_live s.2 !! k_auct a ty u = Some l -> l <= w_seq s.1 + BUMP) /\
  (forall a u au l, auction s.1 a 2 u = Some au -> tt_live s.2 !! k_auct a 2 u = Some l -> l <= au_block au + 399 + BUMP).
Lemma extend_le seq thr bump l B : l <= B -> seq + bump <= B -> extend_ttl seq thr bump l <= B.
Proof. unfold extend_ttl. destruct (_ <? _); lia. Qed.
Lemma tx_min w t o : tt_min (tx_ttl w t o) = tt_min t.
Proof.
  unfold tx_ttl. destruct (exec w o) as [[out w']|]; [|done]. destruct o as [sg xo|sg b po| | | | | | | |]; try done; [by destruct xo|]. destruct po; try done.
  cbv beta iota. generalize (pool w' b). intros p. revert t. induction reqs as [|q qs IH]; intros t; [done|]. cbn [fold_left]. rewrite IH. unfold request_ttl.
  destruct (_ && _); [by destruct (decide _)|]. by destruct (_ =? 9).
Qed.
(** the cases of a transaction by the shape of its effect *)
Ltac by_shape I Hrem Hset :=
  cbv beta iota;
  lazymatch goal with
  | |- tt_live (removed _ _) !! _ = _ -> _ => apply Hrem
  | |- tt_live (set_auction_ttl _ _ _ _ _) !! _ = _ -> _ => apply Hset
  | |- tt_live (fold_left _ _ _) !! _ = _ -> _ => idtac
  | |- tt_live (set_drop_ttl _ _) !! _ = _ -> _ => idtac
  | |- tt_live (set_queued_ttl _ _ _ _) !! _ = _ -> _ => idtac
  | _ => I
  end.
(** what a fold of requests does to one key *)
Lemma requests_le seq a from after B k : forall qs t, tt_min t <= BUMP -> seq + BUMP <= B ->
  (forall l, tt_live t !! k = Some l -> l <= B) ->
  forall l, tt_live (fold_left (request_ttl seq a from after) qs t) !! k = Some l -> l <= B.
Proof.
  induction qs as [|q qs IH]; intros t Hm HB Ht; [exact Ht|]. cbn [fold_left].
  assert (forall k2 l, tt_live (removed k2 t) !! k = Some l -> l <= B) as Hrem.
  { intros k2 l H. unfold removed in H. cbn [tt_live] in H. apply lookup_delete_Some in H as [_ H]. by apply Ht. }
  apply IH; [| done|]; unfold request_ttl.
  - destruct (_ && _); [by destruct (decide _)|]. by destruct (_ =? 9).
  - intros l H. destruct (_ && _); [destruct (decide _)|destruct (_ =? 9)]; try by eapply Hrem; try by apply Ht.
    2: by apply Ht. unfold set_auction_ttl in H. rewrite written_live in H by apply thr_shared. destruct (decide _) as [->|]; [|by apply Ht].
    injection H as <-. apply extend_le; [|exact HB]. destruct (tt_live t !! _) as [l0|] eqn:El; cbn [default]; [by apply Ht|unfold BUMP, LEDGER_BUMP_SHARED, id in *; lia].
Qed.
Lemma requests_other seq a from after b u : forall qs t, (forall q, q ∈ qs -> b = a -> ~ fills 2 u q) ->
  forall l, tt_live (fold_left (request_ttl seq a from after) qs t) !! k_auct b 2 u = Some l -> tt_live t !! k_auct b 2 u = Some l.
Proof.
  induction qs as [|q qs IH]; intros t Hn l H; [exact H|]. cbn [fold_left] in H. apply IH in H; [|intros q' Hq'; apply Hn; by right].
  unfold request_ttl in H. assert (forall k2, tt_live (removed k2 t) !! k_auct b 2 u = Some l -> tt_live t !! k_auct b 2 u = Some l) as Hrem.
  { intros k2 H2. unfold removed in H2. cbn [tt_live] in H2. by apply lookup_delete_Some in H2 as [_ H2]. }
  destruct (Z.leb_spec 6 (rq_type q)), (Z.leb_spec (rq_type q) 8); cbn [andb] in H;
    try (destruct (rq_type q =? 9); [by eapply Hrem|done]).
  destruct (decide _); [|by eapply Hrem]. unfold set_auction_ttl in H. rewrite written_live in H by apply thr_shared.
  destruct (decide _) as [E|]; [|done]. exfalso. injection E as -> E ->. apply (Hn q); [left|done|]. split; [lia|done].
Qed.
Lemma short_step s o : reachable s.1 -> short_inv s -> short_inv (t_step s (TTx o)).
Proof.
  intros Hr (Hm & I1 & I2). cbn [t_step]. unfold short_inv. cbn [fst snd]. split; [by rewrite tx_min|].
  pose proof (step_seq s.1 o) as Hseq.
  assert (forall a ty u l, tt_live (tx_ttl s.1 s.2 o) !! k_auct a ty u = Some l -> l <= w_seq s.1 + BUMP) as J1.
  { intros a ty u l. unfold tx_ttl. destruct (exec s.1 o) as [[out w']|]; [|apply I1].
    assert (forall k2, tt_live (removed k2 s.2) !! k_auct a ty u = Some l -> l <= w_seq s.1 + BUMP) as Hrem.
    { intros k2 H2. unfold removed in H2. cbn [tt_live] in H2. apply lookup_delete_Some in H2 as [_ H2]. by eapply I1. }
    assert (forall b t2 u2, tt_live (set_auction_ttl (w_seq s.1) b t2 u2 s.2) !! k_auct a ty u = Some l -> l <= w_seq s.1 + BUMP) as Hset.
    { intros b t2 u2 H2. unfold set_auction_ttl in H2. rewrite written_live in H2 by apply thr_shared. destruct (decide _) as [<-|]; [|by eapply I1].
      injection H2 as <-. apply extend_le; [|apply Z.le_refl]. destruct (tt_live s.2 !! _) as [l0|] eqn:El; cbn [default]; [by eapply I1|lia]. }
    destruct o as [sg xo|sg b po|sg ad sa orc ra mp|b|dt ds|orc|n|b ty' u'|b r|]; [| |by_shape ltac:(apply I1) Hrem Hset..].
    - destruct xo; by_shape ltac:(apply I1) Hrem Hset. intros H. unfold set_drop_ttl in H. rewrite written_live in H by apply thr_user. destruct (decide _) as [E|]; [discriminate E|by eapply I1].
    - destruct po; by_shape ltac:(apply I1) Hrem Hset.
      + intros H. unfold set_queued_ttl in H. rewrite written_live in H by apply thr_user. destruct (decide _) as [E|]; [discriminate E|by eapply I1].
      + apply (requests_le _ _ _ _ (w_seq s.1 + BUMP)); [apply Hm|lia|apply I1]. }
  split; [intros a ty u l H; pose proof (J1 _ _ _ _ H); lia|].
  intros a u au l H Hl. destruct (exec s.1 o) as [[out w']|] eqn:E; swap 1 2.
  { unfold step in H. unfold tx_ttl in Hl. rewrite E in H, Hl. by eapply I2. }
  assert (step s.1 o = w') as Hw by (unfold step; by rewrite E). rewrite Hw in *.
  destruct (auction s.1 a 2 u) as [au0|] eqn:Hau0; swap 1 2.
  { (* new *) destruct (auct_step _ _ _ _ a 2 u Hr E ltac:(lia)) as [Hs|[(-> & Hs)|[(sg & from & sp & to & qs & -> & Hs)|(_ & au' & _ & _ & Hs & Hb)]]].
    - congruence.
    - congruence.
    - rewrite Hau0, fold_none in Hs. congruence.
    - assert (au' = au) as -> by congruence. pose proof (J1 _ _ _ _ Hl). lia. }
  (* old *)
  assert (au_block au = au_block au0) as Hb.
  { destruct (auct_step _ _ _ _ a 2 u Hr E ltac:(lia)) as [Hs|[(-> & Hs)|[(sg & from & sp & to & qs & -> & Hs)|(Hn & _)]]]; [congruence|congruence| |congruence].
    rewrite H, Hau0 in Hs. symmetry in Hs. by apply fold_block in Hs as [Hs _]. }
  rewrite Hb. assert (forall k2, tt_live (removed k2 s.2) !! k_auct a 2 u = Some l -> l <= au_block au0 + 399 + BUMP) as Hrem.
  { intros k2 H2. unfold removed in H2. cbn [tt_live] in H2. apply lookup_delete_Some in H2 as [_ H2]. by eapply I2. }
  assert (forall b t2 u2, k_auct b t2 u2 <> k_auct a 2 u -> tt_live (set_auction_ttl (w_seq s.1) b t2 u2 s.2) !! k_auct a 2 u = Some l -> l <= au_block au0 + 399 + BUMP) as Hset.
  { intros b t2 u2 Hne H2. unfold set_auction_ttl in H2. rewrite written_live in H2 by apply thr_shared. destruct (decide _) as [E2|]; [by destruct Hne|by eapply I2]. }
  pose proof J1 as J1'. revert Hl. unfold tx_ttl in *. rewrite E in *.
  assert (tt_live s.2 !! k_auct a 2 u = Some l -> l <= au_block au0 + 399 + BUMP) as I2' by (by apply I2).
  destruct o as [sg xo|sg b po|sg ad sa orc ra mp|b|dt ds|orc|n|b ty' u'|b r|]; [| |by_shape ltac:(exact I2') Hrem Hset..].
  - destruct xo; by_shape ltac:(exact I2') Hrem Hset. intros Hl. unfold set_drop_ttl in Hl. rewrite written_live in Hl by apply thr_user. destruct (decide _) as [E2|]; [discriminate E2|by eapply I2].
  - destruct po; by_shape ltac:(exact I2') Hrem Hset; try (intros [=]; fail).
    + intros Hl. unfold set_queued_ttl in Hl. rewrite written_live in Hl by apply thr_user. destruct (decide _) as [E2|]; [discriminate E2|by eapply I2].
    + intros Hl. destruct (decide (Exists (fun q => b = a /\ fills 2 u q) reqs)) as [Hex|Hno].
      * apply Exists_exists in Hex as (q & Hq & -> & Hf). destruct (C26_only_for_400_ledgers _ _ _ _ _ _ _ _ _ _ _ Hr E Hq Hf) as (au1 & Ha1 & Hb1).
        assert (au1 = au0) as -> by congruence. pose proof (J1' _ _ _ _ Hl). lia.
      * eapply I2; [exact Hau0|]. eapply requests_other; [|exact Hl]. intros q Hq Hba Hf. apply Hno, Exists_exists. by exists q.
    + intros [= ->]. exfalso. eapply new_interest_free; [exact Hr|exact Hau0|]. by exists out, w'.
Qed.
Definition nobody_pays (l : list TOp) : Prop := forall k n, TExtend k n ∉ l.
Lemma short_run l : forall s, reachable s.1 -> short_inv s -> nobody_pays l -> short_inv (t_run s l).
Proof.
  induction l as [|x l IH]; intros s Hr I Hn; [done|]. change (t_run s (x :: l)) with (t_run (t_step s x) l). apply IH.
  - exact (t_run_reach [x] s Hr).
  - destruct x as [o|k n]; [by apply short_step|]. exfalso. apply (Hn k n). left.
  - intros k n Hin. apply (Hn k n). by right.
Qed.
(** if nobody pays for extensions (and the network's minimal lifetime is at most 46 days), the entry of an interest auction expires at the latest
    400 ledgers and 46 days after its first block, whatever is done with it *)
Theorem C86_interest_unblocked : forall s0 l a u au,
  t_initial s0 -> 1 <= tt_min s0.2 <= 794880 -> host_ok s0 l -> nobody_pays l -> let s := t_run s0 l in
  auction s.1 a 2 u = Some au -> au_block au + 400 + 794880 <= w_seq s.1 -> host_allows s (TTx (OExpireAuction a 2 u)).
Proof.
  intros s0 l a u au H0 Hm Hok Hn s Hau Hseq. destruct (t_initial_inv _ H0) as [Hr _].
  assert (short_inv s) as (_ & _ & I2).
  { apply short_run; [done| |done]. split; [exact Hm|]. destruct H0 as [(now & seq & t & o & lp & Hw & _) Ht].
    split; [intros a1 ty1 u1 l1 H1; by rewrite Ht, lookup_empty in H1|]. intros a1 u1 au1 l1 _ H1. by rewrite Ht, lookup_empty in H1. }
  cbn [host_allows]. intros L HL. pose proof (I2 _ _ _ _ Hau HL). change BUMP with 794880 in *. lia.
Qed.
