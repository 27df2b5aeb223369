(** * Properties of pool emissions (C33, C34)

    A reserve token id is twice the reserve index, plus 0 for the debt tokens, plus 1
    for the supply tokens.  [claimable now p u id] (PoolEmisInv.v) is what user [u]
    has earned on token [id] at time [now]: the stored amount, plus balance times the
    growth of the token's index since the user's last update, where the index at
    [now] is the stored index plus the emissions per token since the last update. *)
From Verif Require Import Base Types Token Emitter Factory Backstop PoolReserve PoolUser PoolHealth
  PoolAuction PoolSubmit PoolEmis PoolAdmin World Facts XMove Spec FrameFacts PoolFrame PoolCfg PoolAccrue PoolTrace PoolInv AuctionFacts
  PoolSim PoolReq PoolHF PoolOps PoolLiq PoolReach PoolTx PoolEmisInv PoolEmisTx PropsAdmin PropsBackstop Scenario ScenarioPool.

(** BLND returned by the [claim] and by the [gulp_emissions] calls of pool [a] *)
Definition pool_claimed (a : Addr) (w : World) (o : Op) (w' : World) : Z :=
  match o with OPool _ b (PClaim _ _ _) => if b =? a then returned w o else 0 | _ => 0 end.
Definition pool_gulped (a : Addr) (w : World) (o : Op) (w' : World) : Z :=
  match o with OPool _ b PGulp => if b =? a then returned w o else 0 | _ => 0 end.

Lemma emis_ok_later now now' p : now <= now' -> emis_ok now p -> emis_ok now' p.
Proof. intros H [K1 K2 K3 K4]. constructor; try done. intros id d Hd. destruct (K1 _ _ Hd). lia. Qed.
Lemma emis_ok_empty now p : ps_edata p = ∅ -> ps_ecfg p = ∅ -> ps_uemis p = ∅ -> emis_ok now p.
Proof.
  intros H1 H2 H3. constructor; rewrite ?H1, ?H2, ?H3.
  - intros id d. by rewrite lookup_empty.
  - intros id d. by rewrite lookup_empty.
  - intros id _. rewrite lookup_empty. split; [done|]. intros u. by rewrite lookup_empty.
  - intros u id e. by rewrite lookup_empty.
Qed.
Lemma index_at_later now now' n0 p id : now <= now' -> good p -> emis_ok n0 p -> index_at now p id <= index_at now' p id.
Proof.
  intros Hn G K. unfold index_at. destruct (ps_ecfg p !! id) as [cfg|] eqn:Ec; [|lia].
  destruct (eo_eps _ _ K _ _ Ec) as (He & Ha & [d Ed]). rewrite Ed.
  destruct (tok_supply p id =? 0) eqn:Es; [lia|].
  pose proof (tok_list p id [] G Ha ltac:(constructor)) as Hs. simpl in Hs. pose proof (tok_unit_pos p id G).
  apply Z.add_le_mono_l, Z.div_le_mono; [lia|]. apply Z.mul_le_mono_nonneg_r; [lia|]. apply Z.mul_le_mono_nonneg_r; lia.
Qed.
Lemma claimable_later now now' n0 p u id : now <= now' -> good p -> emis_ok n0 p -> claimable now p u id <= claimable now' p u id.
Proof.
  intros Hn G K. unfold claimable. pose proof (index_at_later now now' n0 p id Hn G K). pose proof (tok_bal_nonneg p u id G).
  pose proof (tok_unit_pos p id G). apply Z.add_le_mono_l, Z.div_le_mono; [lia|]. apply Z.mul_le_mono_nonneg_l; lia.
Qed.

(** ** One transaction *)
(** what a transaction does to the emissions of pool [a] *)
Lemma step_effect w a o out w' : reachable w -> emis_ok (w_now w) (pool w a) -> exec w o = Ok (out, w') ->
  emis_ok (w_now w') (pool w' a) /\
  (ps_init (pool w' a) = true -> ps_init (pool w a) = false -> pool_claimed a w o w' = 0 /\ pool_gulped a w o w' = 0 /\ ps_edata (pool w' a) = ∅ /\ ps_ecfg (pool w' a) = ∅ /\ ps_uemis (pool w' a) = ∅) /\
  (ps_init (pool w a) = false -> pool_claimed a w o w' = 0 /\ pool_gulped a w o w' = 0) /\
  (ps_init (pool w a) = true -> ps_init (pool w' a) = true /\
    ((forall sg po, o <> OPool sg a po) /\ same_view (pool w a) (pool w' a) \/
     exists sg po, o = OPool sg a po /\ w_now w' = w_now w /\ emis_effect (w_now w) (pool w a) po out (pool w' a))).
Proof.
  intros Hr K E. pose proof (exec_now _ _ _ _ E) as Hnow. pose proof (reachable_step _ _ _ _ Hr E) as Hr'.
  pose proof (reachable_cfg_wf _ a Hr) as W.
  assert (forall b po sg, o = OPool sg b po -> b = a -> ps_init (pool w a) = false -> exists x1 x2 x3 x4 x5 x6, po = PInit x1 x2 x3 x4 x5 x6) as Honly.
  { intros b po sg -> -> Hi. apply exec_opool in E as (_ & _ & _ & px & H & _). apply p_exec_cfg in H as [Hx _]. cbn [px_p] in Hx.
    destruct po; try congruence. do 6 eexists. reflexivity. }
  assert (ps_init (pool w a) = false -> pool_claimed a w o w' = 0 /\ pool_gulped a w o w' = 0) as Hzero.
  { intros Hi. destruct o as [|sg b po| | | | | | | |]; try done. unfold pool_claimed, pool_gulped. destruct (b =? a) eqn:Eb.
    - apply Z.eqb_eq in Eb as ->. destruct (Honly a po sg eq_refl eq_refl Hi) as (? & ? & ? & ? & ? & ? & ->). done.
    - by destruct po. }
  assert (forall p p', ps_init p = true -> p' = p -> ps_init p' = true /\ same_view p p') as Hsv.
  { intros p p' Hi ->. split; [done|]. by constructor. }
  pose proof E as E0. apply (exec_pool _ _ _ _ a) in E.
  destruct E as [o out w' H Hno|sg po out px w' Hsg Hty Hp H Hw' Hx Hn|sg admin salt orc rate mp w' -> Hn Hra Hm H|t u w' H|r w' H].
  - rewrite H. split; [by eapply emis_ok_later|]. split; [congruence|]. split; [done|]. intros Hi. split; [done|]. left. split; [done|]. by constructor.
  - rewrite Hw' in *. destruct (ps_init (pool w a)) eqn:Ei.
    + pose proof (reachable_good _ a Hr Ei) as G.
      assert (ps_init (px_p px) = true) as Hi'.
      { pose proof (p_exec_data _ _ (mkPX (pool w a) (w_ext w)) _ _ _ G Hty H) as [(_ & ls & T)|[(b & _ & Hs)|(_ & _ & Hk)]].
        - pose proof (ptrace_cfg _ _ _ _ T) as (-> & _). done.
        - destruct Hs as (? & _ & _ & _ & _ & _ & _ & -> & _). done.
        - destruct Hk as (_ & _ & _ & _ & _ & _ & -> & _). done. }
      pose proof (reachable_good _ a Hr') as G'. rewrite Hw' in G'. specialize (G' Hi').
      pose proof (p_exec_effect (ctx w sg) _ (mkPX (pool w a) (w_ext w)) _ _ _ G G' Hty K H) as Hef. change (c_now (ctx w sg)) with (w_now w) in Hef. cbn [px_p] in Hef.
      split; [rewrite Hn; apply Hef|]. split; [done|]. split; [done|]. intros _. split; [done|]. right. exists sg, po. done.
    + destruct (Honly a po sg eq_refl eq_refl eq_refl) as (? & ? & ? & ? & ? & ? & ->).
      apply p_exec_cfg in H as [_ H]. cbv zeta in H. simpl in H. apply initialize_spec in H as (_ & _ & _ & _ & Hp').
      pose proof (cw_fresh _ W Ei) as Hf. rewrite Hf in Hp'.
      assert (ps_edata (px_p px) = ∅ /\ ps_ecfg (px_p px) = ∅ /\ ps_uemis (px_p px) = ∅) as (F1 & F2 & F3) by (rewrite Hp'; done).
      split; [by apply emis_ok_empty|]. split; [intros; split; [done|]; split; done|]. split; [done|]. done.
  - apply initialize_spec in H as (_ & _ & _ & _ & Hp').
    assert (ps_edata (pool w' (dep_addr admin salt)) = ∅ /\ ps_ecfg (pool w' (dep_addr admin salt)) = ∅ /\ ps_uemis (pool w' (dep_addr admin salt)) = ∅) as (F1 & F2 & F3) by (rewrite Hp'; done).
    split; [by apply emis_ok_empty|]. split; [done|]. split; [done|]. unfold pool at 1. rewrite Hn. simpl. done.
  - rewrite H. split; [eapply emis_ok_later; [exact Hnow|]; destruct K as [K1 K2 K3 K4]; by constructor|]. split; [simpl; congruence|]. split; [done|].
    intros Hi. split; [done|]. left. split; [done|]. by constructor.
  - rewrite H. split; [eapply emis_ok_later; [exact Hnow|]; destruct K as [K1 K2 K3 K4]; by constructor|]. split; [simpl; congruence|]. split; [done|].
    intros Hi. split; [done|]. left. split; [done|]. by constructor.
Qed.

Lemma reachable_emis w a : reachable w -> emis_ok (w_now w) (pool w a).
Proof.
  revert w. apply reach_inv'.
  - intros w (? & ? & ? & ? & ? & -> & _). unfold pool; simpl. rewrite lookup_empty. by apply emis_ok_empty.
  - intros w o out w' Hr K E. by apply (step_effect w a o out w' Hr K E).
Qed.

(** ** C33 *)
Lemma returned_out w sg a po out w' : exec w (OPool sg a po) = Ok (out, w') ->
  claim_out po out = pool_claimed a w (OPool sg a po) w' /\ gulp_out po out = pool_gulped a w (OPool sg a po) w'.
Proof.
  intros E. unfold pool_claimed, pool_gulped, returned. rewrite E, Z.eqb_refl. unfold claim_out, gulp_out. destruct po, out; done.
Qed.

Lemma ecovered_empty D p now : emis_ok now p -> ps_ecfg p = ∅ -> (forall j, 0 <= getz D j) -> (forall j, 0 < tok_unit p j) -> ecovered D p.
Proof.
  intros K He HD Hu id l _. destruct (eo_none _ _ K id) as [H1 H2]; [by rewrite He, lookup_empty|].
  assert (eremain p id = 0) as -> by (unfold eremain; by rewrite He, lookup_empty).
  assert (eowed p id l = 0) as ->. { apply sumz_zero. intros u _. unfold puacc, puidx, pidx. rewrite H1, H2. simpl. lia. }
  specialize (HD id). specialize (Hu id). nia.
Qed.

Lemma covered_run_pool a l : forall w0, reachable w0 ->
  (ps_init (pool w0 a) = true -> exists D, ecovered D (pool w0 a)) -> 
  forall c, (ps_init (pool w0 a) = true -> exists D, ecovered D (pool w0 a) /\ msum D <= c) -> 0 <= c ->
  sumh (pool_claimed a) w0 l <= c + sumh (pool_gulped a) w0 l.
Proof.
  induction l as [|o l IH]; intros w0 Hr _ c Hc Hc0; simpl; [lia|].
  unfold step. destruct (exec w0 o) as [[out w1]|] eqn:E.
  2:{ assert (pool_claimed a w0 o w0 = 0 /\ pool_gulped a w0 o w0 = 0) as [-> ->].
      { unfold pool_claimed, pool_gulped, returned. rewrite E. split; destruct o as [|? b po| | | | | | | |]; try done; destruct po; try done; by destruct (b =? a). }
      rewrite !Z.add_0_l. apply IH; [done| |done|done]. intros Hi. destruct (Hc Hi) as (D & V & _). eauto. }
  pose proof (reachable_emis _ a Hr) as K. pose proof (step_effect _ a _ _ _ Hr K E) as (K1 & Hfresh & Hz & Hst).
  pose proof (reachable_step _ _ _ _ Hr E) as Hr1.
  assert (exists c1, pool_claimed a w0 o w1 + c1 <= c + pool_gulped a w0 o w1 /\ 0 <= c1 /\
    (ps_init (pool w1 a) = true -> exists D, ecovered D (pool w1 a) /\ msum D <= c1)) as (c1 & H1 & H2 & H3).
  { destruct (ps_init (pool w0 a)) eqn:Ei.
    - destruct (Hst eq_refl) as (Hi1 & Hcase). destruct (Hc eq_refl) as (D & V & HD).
      pose proof (reachable_good _ a Hr1 Hi1) as G1.
      destruct Hcase as [(Hno & S)|(sg & po & -> & _ & (_ & Hef & _))].
      + exists c. assert (pool_claimed a w0 o w1 = 0 /\ pool_gulped a w0 o w1 = 0) as [-> ->].
        { destruct o as [|sg b po| | | | | | | |]; try done. assert (b <> a) as Hne by (intros ->; by eapply Hno). apply Z.eqb_neq in Hne.
          unfold pool_claimed, pool_gulped. rewrite Hne. by destruct po. }
        split; [lia|]. split; [lia|]. intros _. exists D. split; [by eapply same_view_covered|done].
      + destruct (Hef D V) as (D' & V' & Hm). destruct (returned_out _ _ _ _ _ _ E) as [<- <-].
        assert (forall D, ecovered D (pool w1 a) -> 0 <= msum D) as Hnn.
        { intros D0 V0. unfold msum. apply sumz_nonneg. intros [j v] Hj. apply elem_of_map_to_list in Hj. simpl.
          pose proof (ecovered_nonneg _ _ _ j G1 K1 V0) as Hx. unfold getz in Hx. by rewrite Hj in Hx. }
        exists (msum D'). split; [lia|]. split; [by apply Hnn|]. intros _. exists D'. split; [done|lia].
    - destruct (Hz eq_refl) as [Z1 Z2]. rewrite Z1, Z2. exists c. split; [lia|]. split; [lia|]. intros Hi1.
      destruct (Hfresh Hi1 eq_refl) as (_ & _ & F1 & F2 & F3). exists ∅. split; [|done].
      eapply ecovered_empty; [exact K1|done|intros; unfold getz; by rewrite lookup_empty|].
      intros j. apply tok_unit_pos. by apply reachable_good. }
  assert (sumh (pool_claimed a) w1 l <= c1 + sumh (pool_gulped a) w1 l); [|lia].
  apply IH; [done| |done|done]. intros Hi. destruct (H3 Hi) as (D & V & _). eauto.
Qed.

(** C33.  In every history, for every pool: the BLND returned by (and hence paid out in)
    the pool's claim calls is at most the BLND the pool has taken from the backstop
    with [gulp_emissions]. *)
Theorem C33_claimed_at_most_gulped w0 l a :
  initial w0 -> sumh (pool_claimed a) w0 l <= sumh (pool_gulped a) w0 l.
Proof.
  intros Hi. pose proof (covered_run_pool a l w0 (reachable_initial _ Hi)) as H.
  assert (ps_init (pool w0 a) = false) as Hf.
  { destruct Hi as (? & ? & ? & ? & ? & -> & _). unfold pool; simpl. by rewrite lookup_empty. }
  specialize (H ltac:(congruence) 0 ltac:(congruence) ltac:(lia)). lia.
Qed.

(** ** C34 *)
(** C34, indexes.  No transaction ever lowers the emission index of a token. *)
Theorem C34_index_monotone w o a id : reachable w -> ps_init (pool w a) = true -> pidx (pool w a) id <= pidx (pool (step w o) a) id.
Proof.
  intros Hr Hi. unfold step. destruct (exec w o) as [[out w']|] eqn:E; [|lia].
  destruct (step_effect _ a _ _ _ Hr (reachable_emis _ a Hr) E) as (_ & _ & _ & Hst). destruct (Hst Hi) as (_ & [(_ & S)|(sg & po & _ & _ & Hef)]).
  - rewrite (proj1 (same_view_claimable 0 _ _ S)). lia.
  - apply Hef.
Qed.

(** a claim of token [id] of pool [a] by [u] *)
Definition is_claim (a u id : Z) (o : Op) : Prop := exists sg ids to, o = OPool sg a (PClaim u ids to) /\ id ∈ ids.

(** C34, others.  No transaction but the user's own claim lowers what a user can
    claim on a token; and in the same ledger, no other transaction changes it at all,
    unless nobody held the token before (then the emissions since the last update go to
    whoever takes it up). *)
Theorem C34_others_untouched w o a u id out w' :
  reachable w -> ps_init (pool w a) = true -> exec w o = Ok (out, w') -> ~ is_claim a u id o ->
  claimable (w_now w) (pool w a) u id <= claimable (w_now w') (pool w' a) u id /\
  (w_now w' = w_now w -> tok_supply (pool w a) id <> 0 ->
     claimable (w_now w') (pool w' a) u id = claimable (w_now w) (pool w a) u id).
Proof.
  intros Hr Hi E Hnc. pose proof (reachable_emis _ a Hr) as K. pose proof (reachable_good _ a Hr Hi) as G.
  destruct (step_effect _ a _ _ _ Hr K E) as (_ & _ & _ & Hst). destruct (Hst Hi) as (_ & [(_ & S)|(sg & po & -> & Hn & Hef)]).
  - destruct (same_view_claimable (w_now w') _ _ S) as (_ & S2 & _). rewrite S2. split; [|intros -> _; done].
    eapply claimable_later; [by eapply exec_now|done|exact K].
  - rewrite Hn. destruct Hef as (_ & _ & _ & Hc).
    assert (claims_of u po id = false) as Hf.
    { destruct po; try done. simpl. destruct (Z.eqb_spec from u) as [->|]; [|done]. simpl. apply not_true_iff_false. intros Hx.
      apply Hnc. exists sg, ids, to. split; [done|]. apply existsb_exists in Hx as (j & Hj & Hjj). apply Z.eqb_eq in Hjj as ->. by apply elem_of_list_In. }
    destruct (Hc u id Hf) as [H1 H2]. split; [done|]. intros _ Hs. apply H2. by left.
Qed.

(** a claim of several tokens, one after the other *)
Lemma claim_lbls_exact now u es : forall p p', good p -> emis_ok now p -> ptrace now p (claim_lbls u es) p' ->
  sumz snd es = sumz (claimable now p u) (remove_dups es.*1) /\
  (forall v j, claimable now p' v j = if decide (v = u /\ j ∈ es.*1) then 0 else claimable now p v j).
Proof.
  induction es as [|[i n] es IH]; intros p p' G K T.
  - inversion T; subst. split; [done|]. intros v j. rewrite decide_False; [done|]. intros [_ Hx]. by apply elem_of_nil in Hx.
  - inversion T as [|? ? p1 ? ? M T']; subst.
    pose proof (pmove_good _ _ _ _ G M) as G1. pose proof (pmove_emis_ok _ _ _ _ G K M) as K1.
    apply pmove_emis_upd in M; [|done|done]. simpl in M.
    destruct (emis_upd_claimable _ _ _ _ _ _ _ G K M) as (_ & _ & U3 & _ & _ & U7 & _). specialize (U7 eq_refl).
    destruct (IH _ _ G1 K1 T') as [I1 I2].
    assert (forall b, b <> i -> claimable now p1 u b = claimable now p u b) as Ho.
    { intros b Hb. rewrite U3. rewrite decide_False; [done|]. tauto. }
    assert (claimable now p1 u i = 0) as Hi by (rewrite U3; by rewrite decide_True).
    split.
    + rewrite sumz_cons. rewrite I1. rewrite fmap_cons. simpl. destruct (decide_rel _ i es.*1) as [Hin|Hnin].
      * rewrite (sumz_upd (claimable now p u) (claimable now p1 u) (remove_dups es.*1) i); [|apply (NoDup_remove_dups (es.*1))|apply elem_of_remove_dups; assumption|exact Ho].
        rewrite Hi, U7. lia.
      * rewrite sumz_cons, U7. f_equal. apply sumz_ext. intros b Hb. apply Ho. intros Hbi. subst b. apply Hnin. apply elem_of_remove_dups. exact Hb.
    + intros v j. rewrite I2, U3. rewrite fmap_cons. simpl.
      destruct (decide (v = u /\ j ∈ es.*1)) as [[-> Hj]|Hn1].
      * rewrite decide_True; [done|]. split; [done|]. by right.
      * destruct (decide (v = u /\ j = i /\ true = true)) as [(-> & -> & _)|Hn2].
        -- rewrite decide_True; [done|]. split; [done|]. by left.
        -- rewrite decide_False; [done|]. intros [-> Hj]. apply elem_of_cons in Hj as [->|Hj]; tauto.
Qed.

Lemma claimable_nonneg now p u id : good p -> emis_ok now p -> 0 <= claimable now p u id.
Proof.
  intros G K. unfold claimable. pose proof (tok_bal_nonneg p u id G). pose proof (tok_unit_pos p id G).
  assert (pidx p id <= index_at now p id).
  { unfold index_at. destruct (ps_ecfg p !! id) as [cfg|] eqn:Ec; [|lia].
    destruct (eo_eps _ _ K _ _ Ec) as (He & Ha & [d Ed]). rewrite Ed. unfold pidx. rewrite Ed. simpl.
    destruct (tok_supply p id =? 0) eqn:Es; [lia|].
    pose proof (tok_list p id [] G Ha ltac:(constructor)) as Hs. simpl in Hs.
    assert (0 <= Z.max 0 (Z.min (ec_exp cfg) now - ed_last d) * ec_eps cfg * tok_unit p id / tok_supply p id); [|lia].
    apply Z.div_pos; [|lia]. apply Z.mul_nonneg_nonneg; [|lia]. apply Z.mul_nonneg_nonneg; lia. }
  assert (0 <= puacc p u id /\ puidx p u id <= pidx p id) as [Ha Hu].
  { unfold puacc, puidx. destruct (ps_uemis p !! (u, id)) as [e|] eqn:Ee; simpl.
    - pose proof (eo_user _ _ K _ _ _ Ee). lia.
    - split; [lia|]. unfold pidx. destruct (ps_edata p !! id) as [d|] eqn:Ed; simpl; [|lia]. pose proof (eo_idx _ _ K _ _ Ed). lia. }
  assert (0 <= tok_bal p u id * (index_at now p id - puidx p u id) / tok_unit p id); [|lia].
  apply Z.div_pos; [|lia]. apply Z.mul_nonneg_nonneg; lia.
Qed.

(** C34, exactness.  A successful claim returns the sum of what the caller has earned
    on the listed tokens (a token listed twice counts once), moves exactly that much BLND
    from the backstop to the recipient, needs the caller's authorization, leaves nothing
    to claim on those tokens, and changes neither the caller's other tokens nor anything
    of another user. *)
Theorem C34_claim_exact w sg a u ids to out w' :
  reachable w -> ps_init (pool w a) = true -> exec w (OPool sg a (PClaim u ids to)) = Ok (out, w') ->
  let amt := sumz (claimable (w_now w) (pool w a) u) (remove_dups ids) in
  let blnd := ps_blnd (pool w a) in let bs := ps_backstop (pool w a) in
  u ∈ sg /\ out = OutZ amt /\ 0 <= amt /\
  (forall tk v, balance (x_tok (w_ext w')) tk v = balance (x_tok (w_ext w)) tk v
     - (if bool_decide (tk = blnd /\ v = bs) then amt else 0) + (if bool_decide (tk = blnd /\ v = to) then amt else 0)) /\
  (forall v j, claimable (w_now w') (pool w' a) v j =
     if decide (v = u /\ j ∈ ids) then 0 else claimable (w_now w) (pool w a) v j).
Proof.
  intros Hr Hi E. cbv zeta. pose proof (reachable_emis _ a Hr) as K. pose proof (reachable_good _ a Hr Hi) as G.
  apply exec_opool in E as (Hty & Hn & _ & px & E & Hp & Hx & _). simpl in E. rewrite Hi in E. simpl in E.
  unfold ret_z in E. apply bind_ok in E as ([z px1] & E & E'). injection E' as <- ->.
  apply claim_sim in E as (Ha & es & He & Hz & T & Hpay); [|done|by apply forallb_nonneg]. cbn [px_p px_x c_now ctx] in *.
  change (c_now (ctx w sg)) with (w_now w) in T.
  destruct (claim_lbls_exact _ _ _ _ _ G K T) as [C1 C2]. rewrite He in C1, C2. rewrite C1 in Hz.
  assert (0 <= z) as Hz0 by (rewrite Hz; apply sumz_nonneg; intros; by apply claimable_nonneg).
  split; [|split; [by rewrite Hz|split; [by rewrite <- Hz|split]]].
  - unfold need_auth in Ha. simpl in Ha. apply assert_ok in Ha as [Ha _]. by apply mem_addr_in.
  - rewrite <- Hz, Hx. intros tk v. destruct Hpay as [(Hpos & t & Et & ->)|(Hle & ->)].
    + unfold transfer_from in Et. mon1 Et. apply assert_ok in Et as [_ Et]. apply assert_ok in Et as [_ Et].
      apply tok_move_spec in Et as (_ & _ & _ & Hb & _). cbn [x_tok set]. simpl. rewrite Hb.
      assert (balance (match tk_allow (x_tok (w_ext w)) !! (ps_blnd (pool w a), ps_backstop (pool w a), a) with
        | Some (_, live) => if z =? 0 then x_tok (w_ext w) else set_allow (x_tok (w_ext w)) (ps_blnd (pool w a)) (ps_backstop (pool w a)) a (allowance (as_contract (ctx w sg) a) (x_tok (w_ext w)) (ps_blnd (pool w a)) (ps_backstop (pool w a)) a - z) live
        | None => x_tok (w_ext w) end) tk v = balance (x_tok (w_ext w)) tk v) as ->.
      { destruct (tk_allow _ !! _) as [[? ?]|]; [|done]. by destruct (z =? 0). }
      repeat case_bool_decide; destruct_and?; subst; try tauto; lia.
    + assert (z = 0) as -> by lia. repeat case_bool_decide; lia.
  - rewrite Hn, Hp. done.
Qed.

(** C34, second claim.  After a successful claim, a further claim of the same tokens (or
    some of them) in the same ledger returns 0. *)
Theorem C34_second_claim_zero w sg a u ids to out w' sg2 ids2 to2 out2 w2 :
  reachable w -> ps_init (pool w a) = true ->
  exec w (OPool sg a (PClaim u ids to)) = Ok (out, w') -> (forall j, j ∈ ids2 -> j ∈ ids) ->
  exec w' (OPool sg2 a (PClaim u ids2 to2)) = Ok (out2, w2) -> out2 = OutZ 0.
Proof.
  intros Hr Hi E Hs E2. pose proof (reachable_step _ _ _ _ Hr E) as Hr'.
  destruct (C34_claim_exact _ _ _ _ _ _ _ _ Hr Hi E) as (_ & _ & _ & _ & Hc).
  destruct (step_effect _ a _ _ _ Hr (reachable_emis _ a Hr) E) as (_ & _ & _ & Hst). destruct (Hst Hi) as [Hi' _].
  destruct (C34_claim_exact _ _ _ _ _ _ _ _ Hr' Hi' E2) as (_ & -> & _). f_equal. apply sumz_zero.
  intros j Hj. rewrite elem_of_remove_dups in Hj. rewrite Hc, decide_True; [done|]. split; [done|]. by apply Hs.
Qed.

(** ** The hypotheses are met *)
(** alice supplies AAA and borrows BBB in pool P1, whose emissions go 40% to AAA suppliers
    and 60% to BBB borrowers; a day later she claims both *)
Definition ops_day : list Op := ops_loan ++ [OTick 86400 17280].
Definition claim_op : Op := OPool [alice] P1 (PClaim alice [1; 2; 1] bob).
Example ex_C34_claim_ok : all_ok sc0 (ops_day ++ [claim_op; claim_op]) = true.
Proof. by vm_compute. Qed.
Example ex_C34_reachable : reachable (run sc0 ops_day).
Proof. apply sc_reachable. Qed.
Example ex_C34_init : ps_init (pool (run sc0 ops_day) P1) = true.
Proof. by vm_compute. Qed.
Example ex_C34_amount : 0 < returned (run sc0 ops_day) claim_op.
Proof. by vm_compute. Qed.
Example ex_C34_again : returned (run sc0 (ops_day ++ [claim_op])) claim_op = 0.
Proof. by vm_compute. Qed.
Example ex_C33_sums :
  0 < sumh (pool_claimed P1) sc0 (ops_day ++ [claim_op]) < sumh (pool_gulped P1) sc0 (ops_day ++ [claim_op]).
Proof. by vm_compute. Qed.
