(** * The invariant of a pool's storage, and that every move preserves it *)
From Verif Require Import Base Types Token Emitter Factory Backstop PoolReserve PoolUser PoolHealth
  PoolAuction PoolSubmit PoolEmis PoolAdmin World Facts PoolFrame PoolCfg PoolAccrue PoolTrace.

(** ** Sums over all users *)
Definition total_k (k : kind) (p : PoolSt) (i : Z) : Z :=
  sumz (fun e => ebal k e.2 i) (map_to_list (ps_pos p)).

Lemma sumz_insert {K V} `{Countable K} (f : K * V -> Z) (m : gmap K V) k v :
  sumz f (map_to_list (<[k := v]> m)) =
  sumz f (map_to_list m) + f (k, v) - match m !! k with Some b => f (k, b) | None => 0 end.
Proof.
  destruct (m !! k) as [b|] eqn:E.
  - rewrite <- (insert_delete_insert m).
    rewrite (sumz_perm f _ _ (map_to_list_insert _ _ v (lookup_delete m k))).
    rewrite <- (insert_delete m k b E) at 2.
    rewrite (sumz_perm f _ _ (map_to_list_insert _ _ b (lookup_delete m k))). simpl. lia.
  - rewrite (sumz_perm f _ _ (map_to_list_insert _ _ v E)). simpl. lia.
Qed.

Lemma ebal_none k i : ebal k no_positions i = 0.
Proof. by destruct k. Qed.

Lemma total_set_pos k p u pos i :
  total_k k (p <| ps_pos := <[u := pos]> (ps_pos p) |>) i = total_k k p i + ebal k pos i - ebal k (get_pos p u) i.
Proof.
  unfold total_k, get_pos. simpl. rewrite sumz_insert. simpl.
  destruct (ps_pos p !! u); simpl; rewrite ?ebal_none; lia.
Qed.

Lemma getz_put m i v j : getz (put m i v) j = if decide (i = j) then v else getz m j.
Proof.
  unfold getz, put. destruct (v =? 0) eqn:E; destruct (decide (i = j)) as [->|Hne].
  - rewrite lookup_delete. simpl. lia.
  - by rewrite lookup_delete_ne.
  - by rewrite lookup_insert.
  - by rewrite lookup_insert_ne.
Qed.
#[export] Instance positions_eq : EqDecision Positions. Proof. solve_decision. Defined.
#[export] Instance kind_eq : EqDecision kind. Proof. solve_decision. Defined.
Lemma get_set_k k k' m pos : get_k k' (set_k k m pos) = if decide (k = k') then m else get_k k' pos.
Proof. by destruct k, k'. Qed.

(** same share token: collateral and uncollateralised supply are both bTokens *)
Definition same_side (k k' : kind) : bool :=
  match k, k' with KLiab, KLiab => true | KLiab, _ | _, KLiab => false | _, _ => true end.

Lemma ebal_set k k' pos i j v :
  ebal k' (set_k k (put (get_k k pos) i v) pos) j =
  ebal k' pos j + if same_side k k' && (i =? j) then v - getz (get_k k pos) i else 0.
Proof.
  destruct k, k'; simpl; unfold get_liab, get_coll, get_sup; simpl; rewrite ?getz_put;
    destruct (Z.eqb_spec i j); subst; simpl;
    repeat (rewrite decide_True by done); repeat (rewrite decide_False by done); try lia.
Qed.

(** ** The invariant *)
Record good (p : PoolSt) : Prop := {
  gd_init : ps_init p = true;
  gd_cfg : cfg_wf p;
  gd_dom : forall a, is_Some (ps_rcfg p !! a) <-> is_Some (ps_rdata p !! a);
  gd_rate : forall a d, ps_rdata p !! a = Some d ->
    SCALAR_9 <= rd_d_rate d /\ SCALAR_9 <= rd_b_rate d /\ 100000000 <= rd_ir_mod d <= 10000000000;
  gd_pos : pos_ok p;
  gd_idx : forall u k i v, get_k k (get_pos p u) !! i = Some v -> 0 <= i < Z.of_nat (length (ps_list p));
  gd_sum : forall k a cfg d, ps_rcfg p !! a = Some cfg -> ps_rdata p !! a = Some d ->
    sup_k k d = total_k k p (rc_index cfg)
}.

Lemma pos_ok_pos p u pos k i v : pos_ok p -> ps_pos p !! u = Some pos -> get_k k pos !! i = Some v -> 0 < v.
Proof. intros H Hu. specialize (H u k i v). unfold get_pos in H. rewrite Hu in H. done. Qed.

Lemma ebal_nonneg_pos pos i k : (forall k i v, get_k k pos !! i = Some v -> 0 < v) -> 0 <= ebal k pos i.
Proof.
  intros H.
  assert (forall k, 0 <= getz (get_k k pos) i) as Hg.
  { intros k'. unfold getz. destruct (get_k k' pos !! i) eqn:E; simpl; [apply H in E|]; lia. }
  destruct k; simpl; [apply (Hg KLiab)|..]; pose proof (Hg KColl); pose proof (Hg KSup); simpl in *; unfold get_coll, get_sup; lia.
Qed.
Lemma ebal_nonneg p u i k : pos_ok p -> 0 <= ebal k (get_pos p u) i.
Proof. intros H. apply ebal_nonneg_pos. intros; by eapply H. Qed.
Lemma total_nonneg k p i : pos_ok p -> 0 <= total_k k p i.
Proof.
  intros H. unfold total_k. apply sumz_nonneg. intros [u pos] Hin. apply elem_of_map_to_list in Hin. simpl.
  apply ebal_nonneg_pos. intros k' i' v Hv. by eapply pos_ok_pos.
Qed.
Lemma total_ge k p u i : pos_ok p -> ebal k (get_pos p u) i <= total_k k p i.
Proof.
  intros H. unfold get_pos. destruct (ps_pos p !! u) as [pos|] eqn:E; simpl.
  - unfold total_k. apply (sumz_ge_elem (fun e : Addr * Positions => ebal k e.2 i) _ (u, pos)).
    + intros [u' pos'] Hin. apply elem_of_map_to_list in Hin. simpl. apply ebal_nonneg_pos. intros; by eapply pos_ok_pos.
    + by apply elem_of_map_to_list.
  - rewrite ebal_none. by apply total_nonneg.
Qed.

Lemma good_rd p a d : good p -> ps_rdata p !! a = Some d -> rd_ok d.
Proof.
  intros G H. destruct (gd_rate p G _ _ H) as (H1 & H2 & H3).
  destruct (proj2 (gd_dom p G a)) as [cfg Hc]; [by eexists|].
  constructor; [done|done|done|..].
  - pose proof (gd_sum p G KColl a cfg d Hc H) as Hs. simpl in Hs. rewrite Hs. apply total_nonneg, G.
  - pose proof (gd_sum p G KLiab a cfg d Hc H) as Hs. simpl in Hs. rewrite Hs. apply total_nonneg, G.
Qed.

(** two reserves have different indexes *)
Lemma good_index p a b ca cb :
  cfg_wf p -> ps_rcfg p !! a = Some ca -> ps_rcfg p !! b = Some cb -> rc_index ca = rc_index cb -> a = b.
Proof.
  intros W Ha Hb Hi.
  assert (forall x cx, ps_rcfg p !! x = Some cx -> exists j, ps_list p !! j = Some x /\ rc_index cx = Z.of_nat j) as Hx.
  { intros x cx Hx. pose proof (cw_list p W _ _ Hx) as Hin. apply elem_of_list_lookup in Hin as [j Hj].
    destruct (cw_idx p W _ _ Hj) as (c' & Hc' & Hci). exists j. split; [done|]. congruence. }
  destruct (Hx _ _ Ha) as (i & Hi1 & Hi2), (Hx _ _ Hb) as (j & Hj1 & Hj2).
  assert (i = j) by lia. subst. congruence.
Qed.
Lemma good_index_bound p a ca :
  cfg_wf p -> ps_rcfg p !! a = Some ca -> 0 <= rc_index ca < Z.of_nat (length (ps_list p)) /\ ps_list p !! Z.to_nat (rc_index ca) = Some a.
Proof.
  intros W Hx. pose proof (cw_list p W _ _ Hx) as Hin. apply elem_of_list_lookup in Hin as [j Hj].
  destruct (cw_idx p W _ _ Hj) as (c' & Hc' & Hci). assert (c' = ca) by congruence. subst.
  rewrite Hci, Nat2Z.id. split; [|done]. apply lookup_lt_Some in Hj. lia.
Qed.

Lemma pmove_cfg now p l p' : pmove now p l p' -> same_cfg p p'.
Proof.
  intros H. destruct H as [a cfg d d' H1 H2 H3|k u a dl cfg d n p1 H1 H2 H3 H4 H5 H6 H7|a n d H1 H2 H3|k u a cfg d cl n p1 H1 H2 H3|u|m]; try done.
  - apply p_emissions_emis, emis_cfg in H5. eapply cfg_trans; [exact H5|]. done.
  - by apply p_emissions_emis, emis_cfg in H3.
Qed.

(** the share supplies and the positions after a move, in one form *)
Definition pos_of (l : label) (k : kind) (p : PoolSt) (u : Addr) (i : Z) : Z :=
  match l with
  | LPos k' u' a d =>
      match ps_rcfg p !! a with
      | Some cfg => if decide (k = k' /\ u = u' /\ i = rc_index cfg) then d else 0
      | None => 0
      end
  | _ => 0
  end.
Lemma pmove_positions now p l p' k u i :
  pmove now p l p' -> getz (get_k k (get_pos p' u)) i = getz (get_k k (get_pos p u)) i + pos_of l k p u i.
Proof.
  intros H. destruct H as [a cfg d d' H1 H2 H3|k' u' a dl cfg d n p1 H1 H2 H3 H4 H5 H6 H7|a n d H1 H2 H3|k' u' a cfg d cl n p1 H1 H2 H3|u'|m]; simpl;
    try (unfold get_pos; simpl; lia).
  - rewrite H1. unfold get_pos at 1; simpl. destruct (decide (u = u')) as [->|Hne].
    + rewrite lookup_insert. simpl. rewrite get_set_k. destruct (decide (k' = k)) as [->|Hk].
      * rewrite getz_put. destruct (decide (rc_index cfg = i)) as [<-|Hi].
        -- by rewrite decide_True.
        -- rewrite decide_False by (intros (_ & _ & ->); done). unfold get_pos. lia.
      * rewrite decide_False by (intros (-> & _); done). unfold get_pos. lia.
    + rewrite lookup_insert_ne by done. rewrite decide_False by (intros (_ & -> & _); done). unfold get_pos. lia.
  - apply p_emissions_emis in H3. unfold get_pos. rewrite (emis_pos _ _ H3). lia.
  - unfold get_pos; simpl. destruct (decide (u = u')) as [->|Hne]; [rewrite lookup_insert|rewrite lookup_insert_ne by done]; simpl; lia.
Qed.

Lemma get_pos_set_ps p p0 u pos u' :
  get_pos (p0 <| ps_pos := <[u := pos]> (ps_pos p) |>) u' = if decide (u' = u) then pos else get_pos p u'.
Proof.
  unfold get_pos; simpl. destruct (decide (u' = u)) as [->|]; [by rewrite lookup_insert|by rewrite lookup_insert_ne].
Qed.

Lemma sup_set k k' v d : sup_k k' (set_sup_k k v d) = if same_side k k' then v else sup_k k' d.
Proof. by destruct k, k'. Qed.

Lemma total_ext k p q i : ps_pos p = ps_pos q -> total_k k p i = total_k k q i.
Proof. intros H. unfold total_k. by rewrite H. Qed.

Lemma pmove_good now p l p' : good p -> pmove now p l p' -> good p'.
Proof.
  intros G H. pose proof (pmove_cfg _ _ _ _ H) as Hc.
  assert (ps_init p' = true) as Hi by (destruct Hc as (-> & _); apply G).
  assert (cfg_wf p') as W by (eapply wf_same_cfg; [apply G|apply G|done]).
  pose proof Hc as (_ & _ & _ & _ & Hcf & Hli & Hrc & _).
  destruct H as [a cfg d d' H1 H2 H3|k u a dl cfg d n p1 H1 H2 H3 H4 H5 H6 H7|a n d H1 H2 H3|k u a cfg d cl n p1 H1 H2 H3|u|m].
  - destruct (accrue_spec _ _ _ _ _ (good_rd _ _ _ G H2) (cw_valid _ (gd_cfg _ G) _ _ H1) (cw_rate _ (gd_cfg _ G)) H3)
      as ([] & Hbs & Hds & _).
    constructor; try done; simpl; try apply G.
    + intros b. destruct (decide (b = a)) as [->|]; [rewrite lookup_insert; split; intros; eauto|rewrite lookup_insert_ne by done; apply G].
    + intros b db Hb. destruct (decide (b = a)) as [->|]; [rewrite lookup_insert in Hb; by injection Hb as <-|rewrite lookup_insert_ne in Hb by done; by eapply G].
    + intros k b cb db Hcb Hb. destruct (decide (b = a)) as [->|].
      * rewrite lookup_insert in Hb. injection Hb as <-. transitivity (total_k k p (rc_index cb)); [|done]. rewrite <- (gd_sum p G k a cb d Hcb H2). by destruct k; simpl.
      * rewrite lookup_insert_ne in Hb by done. transitivity (total_k k p (rc_index cb)); [|done]. by eapply (gd_sum p G).
  - pose proof (p_emissions_emis _ _ _ _ _ _ _ _ _ _ H5) as Hs.
    assert (forall u', get_pos (p1 <| ps_rdata := <[a := set_sup_k k (sup_k k d + dl) d]> (ps_rdata p) |>
          <| ps_pos := <[u := set_k k (put (get_k k (get_pos p u)) (rc_index cfg) (getz (get_k k (get_pos p u)) (rc_index cfg) + dl)) (get_pos p u)]> (ps_pos p) |>) u'
        = if decide (u' = u) then set_k k (put (get_k k (get_pos p u)) (rc_index cfg) (getz (get_k k (get_pos p u)) (rc_index cfg) + dl)) (get_pos p u) else get_pos p u') as Hgp
      by (intros; apply get_pos_set_ps).
    constructor; try done.
    + intros b. rewrite Hrc. simpl. destruct (decide (b = a)) as [->|]; [rewrite lookup_insert; split; intros; eauto|rewrite lookup_insert_ne by done; apply G].
    + intros b db Hb. simpl in Hb. destruct (decide (b = a)) as [->|].
      * rewrite lookup_insert in Hb. injection Hb as <-. apply (gd_rate p G) in H2. by destruct k.
      * rewrite lookup_insert_ne in Hb by done; by eapply G.
    + intros u' k' i v Hv. rewrite Hgp in Hv. destruct (decide (u' = u)) as [->|]; [|by eapply (gd_pos p G)].
      rewrite get_set_k in Hv. destruct (decide (k = k')) as [->|]; [|by eapply (gd_pos p G)].
      unfold put in Hv. destruct (_ =? 0) eqn:Ez; destruct (decide (i = rc_index cfg)) as [->|].
      * by rewrite lookup_delete in Hv.
      * rewrite lookup_delete_ne in Hv by done. by eapply (gd_pos p G).
      * rewrite lookup_insert in Hv. injection Hv as <-. lia.
      * rewrite lookup_insert_ne in Hv by done. by eapply (gd_pos p G).
    + intros u' k' i v Hv. rewrite Hli. rewrite Hgp in Hv. destruct (decide (u' = u)) as [->|]; [|by eapply (gd_idx p G)].
      rewrite get_set_k in Hv. destruct (decide (k = k')) as [->|]; [|by eapply (gd_idx p G)].
      destruct (decide (i = rc_index cfg)) as [->|]; [by eapply good_index_bound; [apply G|]|].
      unfold put in Hv. destruct (_ =? 0); [rewrite lookup_delete_ne in Hv by done|rewrite lookup_insert_ne in Hv by done]; by eapply (gd_idx p G).
    + intros k' b cb db Hcb Hb. rewrite Hrc in Hcb. simpl in Hb.
      transitivity (total_k k' (p <| ps_pos := <[u := set_k k (put (get_k k (get_pos p u)) (rc_index cfg) (getz (get_k k (get_pos p u)) (rc_index cfg) + dl)) (get_pos p u)]> (ps_pos p) |>) (rc_index cb)); [|done].
      rewrite total_set_pos, ebal_set.
      destruct (decide (b = a)) as [->|Hne].
      * rewrite lookup_insert in Hb. injection Hb as <-. assert (cb = cfg) by congruence. subst. rewrite Z.eqb_refl, andb_true_r, sup_set.
        rewrite <- (gd_sum p G k' a cfg d H1 H2). destruct k, k'; simpl; lia.
      * rewrite lookup_insert_ne in Hb by done. rewrite <- (gd_sum p G k' b cb db Hcb Hb).
        destruct (Z.eqb_spec (rc_index cfg) (rc_index cb)) as [Heq|]; [|rewrite andb_false_r; lia].
        exfalso. apply Hne. symmetry. eapply good_index; [apply G|exact H1|exact Hcb|done].
  - constructor; try done; simpl; try apply G.
    + intros b. destruct (decide (b = a)) as [->|]; [rewrite lookup_insert; split; intros; eauto|rewrite lookup_insert_ne by done; apply G].
      apply (gd_dom p G). eauto.
    + intros b db Hb. destruct (decide (b = a)) as [->|]; [rewrite lookup_insert in Hb; injection Hb as <-; by apply (gd_rate p G) in H1|rewrite lookup_insert_ne in Hb by done; by eapply G].
    + intros k b cb db Hcb Hb. destruct (decide (b = a)) as [->|].
      * rewrite lookup_insert in Hb. injection Hb as <-. transitivity (total_k k p (rc_index cb)); [|done]. rewrite <- (gd_sum p G k a cb d Hcb H1). by destruct k; simpl.
      * rewrite lookup_insert_ne in Hb by done. transitivity (total_k k p (rc_index cb)); [|done]. by eapply (gd_sum p G).
  - apply p_emissions_emis in H3 as Hs. rewrite Hs in *.
    destruct G. constructor; done.
  - assert (forall u', get_pos (p <| ps_pos := <[u := get_pos p u]> (ps_pos p) |>) u' = get_pos p u') as Hgp.
    { intros u'. rewrite get_pos_set_ps. by destruct (decide (u' = u)) as [->|]. }
    constructor; try done; try apply G.
    + intros u' k i v. rewrite Hgp. apply (gd_pos p G).
    + intros u' k i v. rewrite Hgp. apply (gd_idx p G).
    + intros k a cfg d Hc1 Hd. rewrite total_set_pos. rewrite (gd_sum p G k a cfg d Hc1 Hd). lia.
  - destruct G. constructor; done.
Qed.

Lemma ptrace_good now p ls p' : good p -> ptrace now p ls p' -> good p'.
Proof. apply ptrace_inv. apply pmove_good. Qed.
Lemma ptrace_cfg now p ls p' : ptrace now p ls p' -> same_cfg p p'.
Proof. induction 1; [done|]. eapply cfg_trans; [by eapply pmove_cfg|done]. Qed.
