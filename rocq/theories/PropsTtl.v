(** * C86: temporary entries live long enough, and unfillable auctions block for 45 days *)
From Verif Require Import Base Types Token Emitter Factory Backstop PoolReserve PoolUser PoolHealth
  PoolAuction PoolSubmit PoolEmis PoolAdmin World Facts XMove Spec FrameFacts PoolFrame PoolCfg PropsEmitter PropsAdmin BackMoves PropsBackstop PropsBackstop5 PropsAdmin2 PropsAdmin3 PropsPool3 PropsPool4 PropsPool9 Ttl.

Lemma t_step_world s x : (t_step s x).1 = match x with TTx o => step s.1 o | TExtend _ _ => s.1 end.
Proof. destruct x as [o|k n]; [done|]. simpl. by destruct (tt_live s.2 !! k). Qed.
Lemma step_seq w o : w_seq w <= w_seq (step w o).
Proof. unfold step. destruct (exec w o) as [[out w']|] eqn:E; [by eapply seq_mono|lia]. Qed.
Lemma t_step_seq s x : w_seq s.1 <= w_seq (t_step s x).1.
Proof. rewrite t_step_world. destruct x; [apply step_seq|lia]. Qed.
Lemma t_run_seq l : forall s, w_seq s.1 <= w_seq (t_run s l).1.
Proof.
  induction l as [|x l IH]; intros s; [cbn; lia|]. change (t_run s (x :: l)) with (t_run (t_step s x) l). pose proof (t_step_seq s x). pose proof (IH (t_step s x)). lia.
Qed.
Lemma t_run_reach l : forall s, reachable s.1 -> reachable (t_run s l).1.
Proof.
  induction l as [|x l IH]; intros s Hr; [done|]. change (t_run s (x :: l)) with (t_run (t_step s x) l). apply IH. rewrite t_step_world.
  destruct x; [exact (reachable_run s.1 [o] Hr)|done].
Qed.

(** ** Writes never shorten a lifetime *)
Lemma written_live seq thr bump k t k' : 0 <= thr <= bump ->
  tt_live (written seq thr bump k t) !! k' = if decide (k' = k) then Some (extend_ttl seq thr bump (default (seq + tt_min t - 1) (tt_live t !! k))) else tt_live t !! k'.
Proof. intros H. unfold written. cbn [tt_live]. destruct (decide (k' = k)) as [->|Hne]; [by rewrite lookup_insert|by rewrite lookup_insert_ne]. Qed.
Lemma extend_ge seq thr bump l : 0 <= thr <= bump -> l <= extend_ttl seq thr bump l /\ seq + thr <= extend_ttl seq thr bump l.
Proof. intros H. unfold extend_ttl. destruct (Z.ltb_spec (l - seq) thr); lia. Qed.
(** a lifetime of key [k] kept or made longer *)
Definition longer (k : Key) (t t' : Ttl) : Prop := forall l, tt_live t !! k = Some l -> exists l', tt_live t' !! k = Some l' /\ l <= l'.
Lemma longer_refl k t : longer k t t. Proof. intros l H. exists l. split; [done|lia]. Qed.
Lemma longer_trans k t1 t2 t3 : longer k t1 t2 -> longer k t2 t3 -> longer k t1 t3.
Proof. intros H1 H2 l H. destruct (H1 _ H) as (l2 & H3 & ?). destruct (H2 _ H3) as (l3 & H4 & ?). exists l3. split; [done|lia]. Qed.
Lemma written_longer seq thr bump k k' t : 0 <= thr <= bump -> longer k' t (written seq thr bump k t).
Proof.
  intros H l Hl. rewrite written_live by done. destruct (decide (k' = k)) as [->|Hne]; [|exists l; split; [done|lia]].
  rewrite Hl. cbn [default]. eexists. split; [done|]. by apply extend_ge.
Qed.
Lemma removed_longer k k' t : k' <> k -> longer k' t (removed k t).
Proof. intros H l Hl. unfold removed. cbn [tt_live]. rewrite lookup_delete_ne by congruence. exists l. split; [done|lia]. Qed.
Lemma thr_shared : 0 <= LEDGER_THRESHOLD_SHARED <= LEDGER_BUMP_SHARED. Proof. vm_compute. split; discriminate. Qed.
Lemma thr_user : 0 <= LEDGER_THRESHOLD_USER <= LEDGER_BUMP_USER. Proof. vm_compute. split; discriminate. Qed.

(** a submit shortens only the lifetime of auctions that are gone *)
Lemma requests_longer seq a from after qs k : forall t,
  (forall q, q ∈ qs -> 6 <= rq_type q <= 8 -> k = k_auct a (rq_type q - 6) (rq_addr q) -> is_Some (ps_auct after !! (rq_type q - 6, rq_addr q))) ->
  ((exists q, q ∈ qs /\ rq_type q = 9) -> k <> k_auct a 0 from) ->
  longer k t (fold_left (request_ttl seq a from after) qs t).
Proof.
  induction qs as [|q qs IH]; intros t H1 H2; [apply longer_refl|]. cbn [fold_left].
  eapply longer_trans; [|apply IH].
  - unfold request_ttl. destruct (Z.leb_spec 6 (rq_type q)), (Z.leb_spec (rq_type q) 8); cbn [andb].
    1:{ destruct (decide (is_Some _)) as [Hs|Hn]; [apply written_longer, thr_shared|]. apply removed_longer. intros ->. apply Hn. apply H1; [left|lia|done]. }
    all: destruct (Z.eqb_spec (rq_type q) 9) as [E|E]; [|apply longer_refl]; apply removed_longer, H2; exists q; split; [left|done].
  - intros q' Hq'. apply H1. by right.
  - intros (q' & Hq' & E). apply H2. exists q'. split; [by right|done].
Qed.

(** ** Auctions *)
Lemma fold_none t u from qs : foldl (after_request t u from) None qs = None.
Proof. induction qs as [|q qs IH]; [done|]. cbn [foldl]. unfold after_request at 2. destruct (_ && _); [exact IH|]. destruct (_ && _); exact IH. Qed.
Lemma fold_block t u from qs au : forall au0, foldl (after_request t u from) (Some au0) qs = Some au -> au_block au = au_block au0 /\
  ((exists q, q ∈ qs /\ rq_type q = 9) -> t = 0 -> from <> u).
Proof.
  induction qs as [|q qs IH]; intros au0 H; [injection H as ->; split; [done|]; by intros (q & Hq & _); apply elem_of_nil in Hq|].
  cbn [foldl] in H. unfold after_request at 2 in H. destruct (Z.eqb_spec (rq_type q) (6 + t)) as [E1|E1], (Z.eqb_spec (rq_addr q) u) as [E2|E2]; cbn [andb] in H.
  1:{ cbn [mbind option_bind] in H. destruct (remainder au0 (percent q)) as [au1|] eqn:Er; [|by rewrite fold_none in H].
      destruct (IH _ H) as [I1 I2]. split.
      - rewrite I1. unfold remainder in Er. match type of Er with (if ?b then _ else _) = _ => destruct b; [done|] end. by injection Er as <-.
      - intros (q' & Hq' & E') Et. apply elem_of_cons in Hq' as [->|Hq']; [lia|]. apply I2; [by exists q'|done]. }
  all: destruct (Z.eqb_spec (rq_type q) 9) as [E3|E3], (Z.eqb_spec t 0) as [E4|E4], (Z.eqb_spec from u) as [E5|E5]; cbn [andb] in H;
    try (rewrite fold_none in H; discriminate);
    (destruct (IH _ H) as [I1 I2]; split; [done|]; intros (q' & Hq' & E') Et; try done; (apply elem_of_cons in Hq' as [->|Hq']; [congruence|apply I2; [by exists q'|done]])).
Qed.

(** after a transaction, an auction that exists either is new, and lives 45 days from now, or it existed before and its lifetime did not become shorter *)
Lemma auct_life w t o a ty u au : reachable w -> 0 <= ty <= 2 -> auction (step w o) a ty u = Some au ->
  (exists au0, auction w a ty u = Some au0 /\ au_block au = au_block au0 /\ longer (k_auct a ty u) t (tx_ttl w t o)) \/
  (au_block au = w_seq w + 1 /\ exists l, tt_live (tx_ttl w t o) !! k_auct a ty u = Some l /\ w_seq w + LEDGER_THRESHOLD_SHARED <= l).
Proof.
  intros Hr Hty H. unfold step, tx_ttl in *. destruct (exec w o) as [[out w']|] eqn:E; swap 1 2.
  { left. exists au. split; [done|]. split; [done|apply longer_refl]. }
  destruct (auct_step _ _ _ _ a ty u Hr E Hty) as [Hs|[(-> & Hs)|[(sg & from & sp & to & qs & -> & Hs)|(Hn & au' & (sg & Hop) & _ & Hs & Hb)]]].
  - left. exists au. split; [congruence|]. split; [done|].
    destruct o as [sg xo|sg b po|sg ad sa orc ra mp|b|dt ds|orc|n|b ty' u'|b r|]; try apply longer_refl.
    + destruct xo; try apply longer_refl. apply written_longer, thr_user.
    + destruct po; try apply longer_refl; try (apply written_longer; first [apply thr_user|apply thr_shared]); try by apply removed_longer.
      apply requests_longer.
      * intros q Hq Hq1 [= <- -> <-]. unfold auction in H. by rewrite H.
      * intros Hq9 [= -> -> ->].
        pose proof (C18_auctions_after_submit _ _ _ _ _ _ _ _ _ 0 from Hr E ltac:(lia)) as H18. rewrite Hs in H18. rewrite H in Hs. rewrite <- Hs in H18.
        symmetry in H18. apply fold_block in H18 as [_ H18]. by apply H18.
    + apply removed_longer. intros [= -> -> ->]. pose proof E as E'. cbn [exec] in E'. apply bind_ok in E' as (p & Ep & E'). apply Ok_inj in E'. injection E' as _ <-.
      unfold auction, pool in H. cbn in H. rewrite lookup_insert in H. cbn in H. rewrite lookup_delete in H. done.
    + by apply removed_longer.
    + by apply removed_longer.
  - congruence.
  - left. rewrite H in Hs. symmetry in Hs. destruct (auction w a ty u) as [au0|] eqn:Ea; [|by rewrite fold_none in Hs].
    apply fold_block in Hs as [Hb H9]. exists au0. split; [done|]. split; [done|]. apply requests_longer.
    + intros q Hq Hq1 [= <- <-]. unfold auction in H. by rewrite H.
    + intros Hq9 [= -> ->]. by apply H9.
  - right. assert (au' = au) as -> by congruence. split; [done|].
    destruct Hop as [(-> & pct & ->)|[(-> & -> & ->)|(-> & -> & l & ->)]]; cbv beta iota; unfold set_auction_ttl; rewrite written_live by apply thr_shared;
      rewrite decide_True by done; eexists; (split; [done|]); apply extend_ge, thr_shared.
Qed.

(** every open auction lives at least until 45 days of ledgers after its creation *)
Definition auct_inv (s : World * Ttl) : Prop := forall a ty u au, 0 <= ty <= 2 -> auction s.1 a ty u = Some au ->
  exists l, tt_live s.2 !! k_auct a ty u = Some l /\ au_block au - 1 + LEDGER_THRESHOLD_SHARED <= l.
Lemma auct_inv_step s x : reachable s.1 -> auct_inv s -> auct_inv (t_step s x).
Proof.
  intros Hr I a ty u au Hty H. rewrite t_step_world in H. destruct x as [o|k n].
  - cbn [t_step snd]. destruct (auct_life s.1 s.2 o a ty u au Hr Hty H) as [(au0 & H0 & Hb & Hl)|(Hb & l & H1 & H2)].
    + destruct (I _ _ _ _ Hty H0) as (l & H1 & H2). destruct (Hl _ H1) as (l' & H3 & H4). exists l'. split; [done|lia].
    + exists l. split; [done|lia].
  - destruct (I _ _ _ _ Hty H) as (l & H1 & H2). cbn [t_step]. destruct (tt_live s.2 !! k) as [l0|] eqn:Ek; [|by exists l].
    cbn [snd tt_live]. destruct (decide (k_auct a ty u = k)) as [<-|Hne]; [|rewrite lookup_insert_ne by done; by exists l].
    rewrite lookup_insert. eexists. split; [done|]. rewrite H1 in Ek. injection Ek as <-. lia.
Qed.
Lemma t_initial_inv s : t_initial s -> reachable s.1 /\ auct_inv s.
Proof.
  intros [Hi Ht]. split; [by apply reachable_initial|]. destruct Hi as (now & seq & t & o & lp & Hw & _). intros a ty u au _ H.
  unfold auction, pool in H. rewrite Hw in H. cbn in H. rewrite lookup_empty in H. cbn in H. rewrite lookup_empty in H. done.
Qed.
Lemma t_run_inv l : forall s, reachable s.1 -> auct_inv s -> auct_inv (t_run s l).
Proof.
  induction l as [|x l IH]; intros s Hr I; [done|]. change (t_run s (x :: l)) with (t_run (t_step s x) l). apply IH; [exact (t_run_reach [x] s Hr)|by apply auct_inv_step].
Qed.
Lemma t_reach_inv s : t_reachable s -> reachable s.1 /\ auct_inv s.
Proof.
  intros (s0 & l & H0 & _ & ->). destruct (t_initial_inv _ H0) as [Hr I]. split; [by apply t_run_reach|by apply t_run_inv].
Qed.

(** ** What survives until the end of its lifetime *)
Definition expiry (k : Key) (x : TOp) : Prop :=
  match x with
  | TTx (OExpireAuction a ty u) => k = k_auct a ty u
  | TTx (OExpireQueue a asset) => k = k_queue a asset
  | TTx OExpireDrop => k = k_drop
  | _ => False
  end.
Lemma extend_longer s k' n k : longer k s.2 (t_step s (TExtend k' n)).2.
Proof.
  intros l Hl. cbn [t_step]. destruct (tt_live s.2 !! k') as [l0|] eqn:Ek; [|exists l; split; [done|lia]]. cbn [snd tt_live].
  destruct (decide (k = k')) as [->|Hne]; [|rewrite lookup_insert_ne by done; exists l; split; [done|lia]].
  rewrite lookup_insert. eexists. split; [done|]. rewrite Hl in Ek. injection Ek as <-. lia.
Qed.
Lemma t_kept k (P : World -> Prop) S l :
  (forall x, x ∈ l -> forall s, reachable s.1 -> P s.1 -> ~ expiry k x -> P (t_step s x).1 /\ longer k s.2 (t_step s x).2) ->
  forall s, reachable s.1 -> P s.1 -> (exists L, tt_live s.2 !! k = Some L /\ S <= L) -> host_ok s l -> w_seq (t_run s l).1 <= S -> P (t_run s l).1.
Proof.
  induction l as [|x l IH]; intros Hstep s Hr HP (L & HL & HS) Hok Hseq; [done|].
  change (t_run s (x :: l)) with (t_run (t_step s x) l) in *. destruct Hok as [Ha Hok].
  assert (~ expiry k x) as Hne.
  { intros He. pose proof (t_run_seq l (t_step s x)) as H1. pose proof (t_step_seq s x) as H2.
    destruct x as [o|]; [|done]. destruct o; try done; cbn [expiry host_allows] in He, Ha; subst k; specialize (Ha _ HL); exact (Z.lt_irrefl _ (Z.lt_le_trans _ _ _ Ha (Z.le_trans _ _ _ H2 (Z.le_trans _ _ _ H1 (Z.le_trans _ _ _ Hseq HS))))). }
  destruct (Hstep x ltac:(left) s Hr HP Hne) as [HP' Hl]. destruct (Hl _ HL) as (L' & HL' & ?).
  apply IH; [|exact (t_run_reach [x] s Hr)|done|exists L'; split; [done|lia]|done|done].
  intros y Hy. apply Hstep. by right.
Qed.

(** ** Auctions *)
(** 45 days in ledgers of 5 seconds *)
Definition DAYS45 : Z := 777600.
Definition DAYS100 : Z := 1728000.
Theorem C86_no_early_expiry : forall s a ty u au, t_reachable s -> 0 <= ty <= 2 -> auction s.1 a ty u = Some au ->
  host_allows s (TTx (OExpireAuction a ty u)) -> au_block au + DAYS45 <= w_seq s.1.
Proof.
  intros s a ty u au Hs Hty Hau Ha. destruct (t_reach_inv _ Hs) as [_ I]. destruct (I _ _ _ _ Hty Hau) as (l & H1 & H2).
  cbn [host_allows] in Ha. specialize (Ha _ H1). change LEDGER_THRESHOLD_SHARED with DAYS45 in H2. lia.
Qed.

Theorem C86_interest_blocked_45_days : forall s l a u au,
  t_reachable s -> host_ok s l -> auction s.1 a 2 u = Some au -> au_block au + 400 <= w_seq s.1 ->
  w_seq (t_run s l).1 < au_block au + DAYS45 ->
  let w' := (t_run s l).1 in
  auction w' a 2 u = Some au /\
  (forall sg from spender to qs q, q ∈ qs -> fills 2 u q -> ~ succeeds w' (OPool sg a (PSubmit from spender to qs))) /\
  (forall sg assets, ~ succeeds w' (OPool sg a (PNewInterest assets))).
Proof.
  intros s l a u au Hs Hok Hau H400 Hend. destruct (t_reach_inv _ Hs) as [Hr I]. destruct (I a 2 u au ltac:(lia) Hau) as (L & HL & HS).
  change LEDGER_THRESHOLD_SHARED with DAYS45 in HS.
  assert (auction (t_run s l).1 a 2 u = Some au /\ au_block au + 400 <= w_seq (t_run s l).1) as [H1 H2].
  { apply (t_kept (k_auct a 2 u) (fun w => auction w a 2 u = Some au /\ au_block au + 400 <= w_seq w) (au_block au - 1 + DAYS45)); [|done|done|by exists L|done|lia].
    intros x _ s1 Hr1 [P1 P2] Hne. destruct x as [o|k n].
    - assert (auction (t_step s1 (TTx o)).1 a 2 u = Some au) as P1'.
      { destruct (C26_stuck_after_400 _ a u au [o] Hr1 P1 P2) as [H _]; [|exact H]. intros Hin. apply elem_of_list_singleton in Hin as <-. by apply Hne. }
      split; [split; [exact P1'|exact (Z.le_trans _ _ _ P2 (t_step_seq s1 (TTx o)))]|]. cbn [t_step snd fst] in *.
      destruct (auct_life s1.1 s1.2 o a 2 u au Hr1 ltac:(lia) P1') as [(au0 & _ & _ & H)|(Hb & _)]; [exact H|lia].
    - split; [|apply extend_longer]. rewrite t_step_world. by split. }
  cbv zeta. split; [done|]. pose proof (t_run_reach l s Hr) as Hr'.
  pose proof (C26_stuck_after_400 _ a u au [] Hr' H1 H2 ltac:(by apply not_elem_of_nil)) as (_ & H3 & H4). by split.
Qed.

(** ** Queued reserve changes *)
Definition queued (w : World) (a asset : Addr) : option QueuedRes := ps_queue (pool w a) !! asset.
Lemma queue_kept w a o out w' asset q : exec w o = Ok (out, w') -> queued w a asset = Some q -> o <> OExpireQueue a asset ->
  (forall sg, o <> OPool sg a (PCancelRes asset) /\ o <> OPool sg a (PSetRes asset)) -> queued w' a asset = Some q.
Proof.
  unfold queued. intros H Hq Hx Hn. apply (exec_pool _ _ _ _ a) in H.
  destruct H as [o out w' H Hno|sg po out px w' Hsg Hty Hp H Hw _ _|sg admin salt orc rate mp w' -> Hn' Hr Hm H|t u w' H|r w' H].
  - by rewrite H.
  - rewrite Hw. clear Hw. specialize (Hn sg) as [Hn1 Hn2]. apply p_exec_cfg in H as [Hi H]. cbv zeta in *. cbn [px_p] in H.
    assert (same_cfg (pool w a) (px_p px) -> ps_queue (px_p px) !! asset = Some q) as Hs.
    { intros (_ & _ & _ & _ & _ & _ & _ & He & _). by rewrite He. }
    destruct po; try by auto.
    + apply initialize_spec in H as (_ & _ & _ & _ & ->). done.
    + unfold p_set_admin in H. mon H. by rewrite <- H.
    + unfold p_update_pool in H. mon H. by rewrite <- H.
    + unfold p_queue_reserve in H. mon H. rewrite <- H. simpl. destruct (decide (asset0 = asset)) as [->|Hne]; [|by rewrite lookup_insert_ne].
      rewrite Hq in G. rewrite bool_decide_true in G by done. discriminate.
    + unfold p_cancel_reserve in H. mon H. rewrite <- H. simpl. rewrite lookup_delete_ne; [done|]. intros ->. by apply Hn1.
    + destruct H as (i & H & _). apply set_reserve_spec in H as (q' & _ & _ & _ & _ & ->). simpl. rewrite lookup_delete_ne; [done|]. intros ->. by apply Hn2.
    + destruct H as (s & H & _). unfold p_update_status in H. mon H. done.
    + apply set_status_range in H as (_ & _ & ->). done.
    + rewrite H. done.
    + apply set_emis_spec in H as (_ & -> & _); done.
  - unfold pool in Hq. rewrite Hn' in Hq. done.
  - rewrite H. done.
  - rewrite H. simpl. rewrite lookup_delete_ne; [done|]. intros ->. by apply Hx.
Qed.
Lemma queue_longer w t o a asset : ~ expiry (k_queue a asset) (TTx o) ->
  (forall sg, o <> OPool sg a (PCancelRes asset) /\ o <> OPool sg a (PSetRes asset)) -> longer (k_queue a asset) t (tx_ttl w t o).
Proof.
  intros Hx Hn. unfold tx_ttl. destruct (exec w o) as [[out w']|]; [|apply longer_refl].
  destruct o as [sg xo|sg b po|sg ad sa orc ra mp|b|dt ds|orc|n|b ty' u'|b r|]; try apply longer_refl.
  - destruct xo; try apply longer_refl. apply written_longer, thr_user.
  - destruct (Hn sg) as [Hn1 Hn2]. destruct po; try apply longer_refl; try (apply written_longer; first [apply thr_user|apply thr_shared]);
      try (apply removed_longer; intros [= -> ->]; congruence).
    apply requests_longer; [intros q _ _ [=]|intros _ [=]].
  - by apply removed_longer.
  - apply removed_longer. intros E. by apply Hx.
  - by apply removed_longer.
Qed.
(** a queued reserve change stays as it was queued for 100 days of ledgers, unless the admin cancels it or it is executed; in particular the admin
    cannot replace it *)
Theorem C86_queued_change_stays_100_days : forall s sg a asset m l,
  reachable s.1 -> succeeds s.1 (OPool sg a (PQueueRes asset m)) ->
  let s1 := t_step s (TTx (OPool sg a (PQueueRes asset m))) in
  host_ok s1 l -> (forall sg', TTx (OPool sg' a (PCancelRes asset)) ∉ l /\ TTx (OPool sg' a (PSetRes asset)) ∉ l) ->
  w_seq (t_run s1 l).1 <= w_seq s.1 + DAYS100 ->
  queued (t_run s1 l).1 a asset = Some (mkQueuedRes m (if status s.1 a =? 6 then w_now s.1 else w_now s.1 + 604800)).
Proof.
  intros s sg a asset m l Hr (out & w' & E) s1 Hok Hl Hseq.
  assert (s1.1 = w') as Hw' by (unfold s1; cbn [t_step fst]; unfold step; by rewrite E).
  apply (t_kept (k_queue a asset) (fun w => queued w a asset = Some (mkQueuedRes m (if status s.1 a =? 6 then w_now s.1 else w_now s.1 + 604800))) (w_seq s.1 + DAYS100)); [| | | |done|done].
  - intros x Hin s2 Hr2 HP Hne. destruct x as [o|k n].
    + assert (forall sg', o <> OPool sg' a (PCancelRes asset) /\ o <> OPool sg' a (PSetRes asset)) as Hno.
      { intros sg'. destruct (Hl sg') as [H1 H2]. split; intros ->; [by apply H1|by apply H2]. }
      split; [|by apply queue_longer]. cbn [t_step fst]. unfold step. destruct (exec s2.1 o) as [[out2 w2]|] eqn:E2; [|done].
      eapply queue_kept; [exact E2|exact HP| |exact Hno]. intros ->. by apply Hne.
    + split; [|apply extend_longer]. by rewrite t_step_world.
  - exact (t_run_reach [TTx (OPool sg a (PQueueRes asset m))] s Hr).
  - rewrite Hw'. unfold queued. apply (exec_pool _ _ _ _ a) in E. inversion E as [? ? ? _ Hno|? ? ? px ? _ _ Hp Hx Hw _ _| | |]; subst.
    { exfalso. by eapply Hno. }
    apply p_exec_cfg in Hx as [_ Hx]. cbn [px_p] in Hx. unfold p_queue_reserve in Hx. mon Hx. rewrite Hw, <- Hx. simpl. rewrite lookup_insert. f_equal. f_equal.
    unfold status. destruct (_ =? 6); cbn [negb] in *; [by match goal with H : Ok _ = Ok _ |- _ => injection H end|].
    match goal with H : u64 _ = Ok _ |- _ => apply u64_ok in H as [-> _] end. done.
  - unfold s1. cbn [t_step snd]. unfold tx_ttl. rewrite E. unfold set_queued_ttl. rewrite written_live by apply thr_user. rewrite decide_True by done.
    eexists. split; [done|]. apply extend_ge, thr_user.
Qed.

(** ** The drop list *)
Definition dlist (x : Ext) : option (list (Addr * Z)) := bs_drop (x_bs x).
Lemma dl_emis x x' : emis_frame x x' -> dlist x' = dlist x.
Proof. by intros (e & u & ->). Qed.
Lemma dl_mint x to n x' : em_mint x to n = Ok x' -> dlist x' = dlist x.
Proof. unfold em_mint. intros H. by mon H. Qed.
Lemma dl_mints l x x' : foldM (fun x p => em_mint x p.1 p.2) x l = Ok x' -> dlist x' = dlist x.
Proof. apply (foldM_rel (fun x x' => dlist x' = dlist x)); [done|congruence|]. intros s e s' _ Hs. by apply dl_mint in Hs. Qed.
Lemma dl_distr c x b n x' : em_execute_distribute c x b = Ok (n, x') -> dlist x' = dlist x.
Proof. unfold em_execute_distribute. intros H. mon H. match goal with E : em_mint _ _ _ = Ok _ |- _ => by apply dl_mint in E end. Qed.
Lemma dl_drop c x l x' : em_drop c x l = Ok x' -> dlist x' = dlist x.
Proof. unfold em_drop. intros H. mon H. match goal with E : foldM _ x _ = Ok _ |- _ => apply dl_mints in E end. by rewrite <- E1. Qed.
Lemma dl_draw c x p n t x' : b_draw c x p n t = Ok x' -> dlist x' = dlist x.
Proof. unfold b_draw. intros H. by mon H. Qed.
Lemma dl_donate c x p n t x' : b_donate c x p n t = Ok x' -> dlist x' = dlist x.
Proof. unfold b_donate. intros H. by mon H. Qed.
Lemma dl_gulp_pool c x p n x' : b_gulp_pool c x p = Ok (n, x') -> dlist x' = dlist x.
Proof. unfold b_gulp_pool. intros H. by mon H. Qed.
Lemma dl_set_ecfg c x p pb n x' : b_set_ecfg c x p pb n = Ok x' -> dlist x' = dlist x.
Proof.
  unfold b_set_ecfg. intros H. mon H. change (dlist e = dlist x).
  destruct (bs_ecfg _ !! _).
  - mon E. apply emis_frame_data, dl_emis in E2. destruct (_ <? _); mon E; destruct (negb _); done.
  - by mon E.
Qed.
Lemma dl_gulp c x n x' : b_gulp c x = Ok (n, x') -> dlist x' = dlist x.
Proof.
  unfold b_gulp. intros H. mon H.
  match goal with E : foldM (gulp_one _ _ _ _) _ _ = Ok _ |- _ => eapply (foldM_rel (fun x x' => dlist x' = dlist x)) in E; [exact E|done|congruence|] end.
  intros s a s' _ Hs. unfold gulp_one in Hs. mon Hs. match goal with E : b_set_ecfg _ _ _ _ _ = Ok _ |- _ => apply dl_set_ecfg in E; exact E end.
Qed.
Lemma dl_claim c x f ps t n m x' : b_claim c x f ps t n = Ok (m, x') -> dlist x' = dlist x.
Proof.
  unfold b_claim. intros H. mon1 H. mon1 H. apply bind_ok in H as ([[cl cs] y] & E1 & H).
  assert (dlist y = dlist x) as Hy.
  { change (dlist (snd (cl, cs, y)) = dlist (snd (0, ∅ : gmap Addr Z, x))). revert E1. apply (foldM_rel (fun s s' => dlist (snd s') = dlist (snd s))); [done|congruence|].
    intros [[a b] s] p [[a' b'] s'] _ Hs. unfold claim_one in Hs. mon Hs. match goal with E : b_emissions _ _ _ _ _ _ _ = Ok _ |- _ => apply emis_frame_b, dl_emis in E; exact E end. }
  destruct (0 <? cl); [|by injection H as <- <-]. mon H.
  match goal with E : foldM (claim_dep _ _ _ _) _ _ = Ok _ |- _ => eapply (foldM_rel (fun x x' => dlist x' = dlist x)) in E; [rewrite E, <- Hy; done|done|congruence|] end.
  intros s a s' _ Hs. unfold claim_dep in Hs. by mon Hs.
Qed.
Lemma dl_xmove c self x x' : xmove c self x x' -> dlist x' = dlist x.
Proof.
  intros []; try done; [by eapply dl_draw|by eapply dl_donate|by eapply dl_gulp_pool].
Qed.
Lemma dl_xmoves c self x x' : xmoves c self x x' -> dlist x' = dlist x.
Proof. induction 1 as [|x y z H _ IH]; [done|]. rewrite IH. by eapply dl_xmove. Qed.

Definition sets_drop (o : Op) : Prop := match o with OExt _ (BInit _ _ _ _ _ _) | OExpireDrop => True | _ => False end.
Lemma dlist_step w o out w' : exec w o = Ok (out, w') -> ~ sets_drop o -> dlist (w_ext w') = dlist (w_ext w).
Proof.
  intros H Hn. destruct o as [sg o|sg a o|sg ad sa orc ra mp|b|dt ds|orc|n|b t u|b r|]; simpl in H.
  - apply assert_ok in H as [_ H]. apply bind_ok in H as ([o' x] & H & [= <- <-]). simpl.
    destruct o; simpl in H, Hn; try (by destruct (Hn I)); unfold ret_unit, ret_z in H; mon H;
      try (by match goal with
        | E : em_distribute _ _ = Ok _ |- _ => unfold em_distribute in E; mon E; by eapply dl_distr
        | E : em_queue_swap _ _ _ _ = Ok _ |- _ => unfold em_queue_swap in E; by mon E
        | E : em_cancel_swap _ _ = Ok _ |- _ => unfold em_cancel_swap in E; by mon E
        | E : em_drop _ _ _ = Ok _ |- _ => by eapply dl_drop
        | E : b_queue _ _ _ _ _ = Ok _ |- _ => unfold b_queue in E; mon E; match goal with E : b_emissions _ _ _ _ _ _ _ = Ok _ |- _ => apply emis_frame_b, dl_emis in E; exact E end
        | E : b_deposit _ _ _ _ _ = Ok _ |- _ => unfold b_deposit in E; mon E; match goal with E : b_emissions _ _ _ _ _ _ _ = Ok _ |- _ => apply emis_frame_b, dl_emis in E; exact E end
        | E : b_dequeue _ _ _ _ _ = Ok _ |- _ => unfold b_dequeue in E; mon E; match goal with E : b_emissions _ _ _ _ _ _ _ = Ok _ |- _ => apply emis_frame_b, dl_emis in E; exact E end
        | E : b_withdraw _ _ _ _ _ = Ok _ |- _ => unfold b_withdraw in E; by mon E
        | E : b_draw _ _ _ _ _ = Ok _ |- _ => by eapply dl_draw
        | E : b_donate _ _ _ _ _ = Ok _ |- _ => by eapply dl_donate
        | E : b_update_tkn_val _ _ = Ok _ |- _ => unfold b_update_tkn_val in E; by mon E
        | E : b_drop _ _ = Ok _ |- _ => unfold b_drop in E; mon E; by eapply dl_drop
        | E : b_add_reward _ _ _ _ = Ok _ |- _ => unfold b_add_reward in E; mon E; destruct (_ <? _); by mon E
        | E : b_gulp _ _ = Ok _ |- _ => by eapply dl_gulp
        | E : b_gulp_pool _ _ _ = Ok _ |- _ => by eapply dl_gulp_pool
        | E : b_claim _ _ _ _ _ _ = Ok _ |- _ => by eapply dl_claim
        | E : em_initialize _ _ _ _ _ = Ok _ |- _ => unfold em_initialize in E; by mon E
        | E : fa_initialize _ _ _ = Ok _ |- _ => unfold fa_initialize in E; by mon E
        end).
    all: try reflexivity.
    unfold em_swap_backstop in E. mon E. match goal with E : em_execute_distribute _ _ _ = Ok _ |- _ => apply dl_distr in E; exact E end.
  - apply assert_ok in H as [_ H]. apply bind_ok in H as (p & _ & H). apply bind_ok in H as ([o' px] & H & [= <- <-]). simpl.
    apply p_exec_xmoves in H. simpl in H. by eapply dl_xmoves.
  - mon H. by destruct (w_pools w !! _); mon H.
  - mon H. by destruct (w_pools w !! _); mon H.
  - by mon H.
  - by mon H.
  - by mon H.
  - by mon H.
  - by mon H.
  - by destruct Hn.
Qed.


Lemma drop_longer w t o : o <> OExpireDrop -> longer k_drop t (tx_ttl w t o).
Proof.
  intros Hx. unfold tx_ttl. destruct (exec w o) as [[out w']|]; [|apply longer_refl].
  destruct o as [sg xo|sg b po|sg ad sa orc ra mp|b|dt ds|orc|n|b ty' u'|b r|]; try apply longer_refl.
  - destruct xo; try apply longer_refl. apply written_longer, thr_user.
  - destruct po; try apply longer_refl; try (apply written_longer; first [apply thr_user|apply thr_shared]); try by apply removed_longer.
    apply requests_longer; [intros q _ _ [=]|intros _ [=]].
  - by apply removed_longer.
  - by apply removed_longer.
  - done.
Qed.
(** the backstop's drop list stays as it was given for 100 days of ledgers *)
Theorem C86_drop_list_stays_100_days : forall s sg token em usdc blnd factory drop l,
  reachable s.1 -> succeeds s.1 (OExt sg (BInit token em usdc blnd factory drop)) ->
  let s1 := t_step s (TTx (OExt sg (BInit token em usdc blnd factory drop))) in
  host_ok s1 l -> w_seq (t_run s1 l).1 <= w_seq s.1 + DAYS100 ->
  bs_drop (x_bs (w_ext (t_run s1 l).1)) = Some drop.
Proof.
  intros s sg token em usdc blnd factory drop l Hr (out & w' & E) s1 Hok Hseq.
  assert (s1.1 = w') as Hw' by (unfold s1; cbn [t_step fst]; unfold step; by rewrite E).
  assert (bs_init (x_bs (w_ext w')) = true /\ dlist (w_ext w') = Some drop) as [Hi Hd].
  { clear - E. cbn [exec] in E. apply assert_ok in E as [_ E]. apply bind_ok in E as ([o' y] & E & H). apply Ok_inj in H. injection H as _ <-.
    cbn in E. unfold ret_unit in E. mon E. match goal with H : b_initialize _ _ _ _ _ _ _ _ = Ok _ |- _ => unfold b_initialize in H; mon H end. done. }
  enough (bs_init (x_bs (w_ext (t_run s1 l).1)) = true /\ dlist (w_ext (t_run s1 l).1) = Some drop) by tauto.
  apply (t_kept k_drop (fun w => bs_init (x_bs (w_ext w)) = true /\ dlist (w_ext w) = Some drop) (w_seq s.1 + DAYS100)); [| | | |done|done].
  - intros x Hin s2 Hr2 [P1 P2] Hne. destruct x as [o|k n].
    + split; [|apply drop_longer; intros ->; by apply Hne]. destruct (C61_initialized_once s2.1 [o]) as (_ & _ & Hb & _).
      split; [by apply Hb|]. cbn [t_step fst]. unfold step. destruct (exec s2.1 o) as [[out2 w2]|] eqn:E2; [|done].
      rewrite <- P2. eapply dlist_step; [exact E2|]. destruct o as [sg2 xo| | | | | | | | |]; try (by intros []).
      destruct xo; try (by intros []). intros _. clear - P1 E2. cbn [exec] in E2. apply assert_ok in E2 as [_ E2]. apply bind_ok in E2 as ([o' y] & E2 & _).
      cbn in E2. unfold ret_unit in E2. mon E2. match goal with H : b_initialize _ _ _ _ _ _ _ _ = Ok _ |- _ => unfold b_initialize in H; rewrite P1 in H; discriminate end.
    + split; [|apply extend_longer]. by rewrite t_step_world.
  - exact (t_run_reach [TTx (OExt sg (BInit token em usdc blnd factory drop))] s Hr).
  - by rewrite Hw'.
  - unfold s1. cbn [t_step snd]. unfold tx_ttl. rewrite E. unfold set_drop_ttl. rewrite written_live by apply thr_user. rewrite decide_True by done.
    eexists. split; [done|]. apply extend_ge, thr_user.
Qed.
