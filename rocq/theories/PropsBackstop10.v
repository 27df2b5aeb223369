(** * Backstop emissions: claims are exact and nobody touches what another has earned (C76) *)
From Verif Require Import Base Types Token Emitter Factory Backstop PoolReserve PoolUser PoolHealth
  PoolAuction PoolSubmit PoolEmis PoolAdmin World Facts XMove Spec FrameFacts PoolFrame PoolCfg BackMoves BackInv BackEmis PropsAdmin PropsBackstop PropsBackstop2 PropsBackstop5.

(** ** Observers *)
(** the shares of pool [p] that are not queued for withdrawal *)
Definition free_shares (x : Ext) (p : Addr) : Z := pb_shares (get_pb x p) - pb_q4w (get_pb x p).
(** BLND (1e-7) earned so far by one whole share, as of [now] *)
Definition bindex_at (now : Z) (x : Ext) (p : Addr) : Z :=
  match bs_ecfg (x_bs x) !! p, bs_edata (x_bs x) !! p with
  | Some cfg, Some d =>
      ed_index d + if free_shares x p =? 0 then 0 else Z.max 0 (Z.min (ec_exp cfg) now - ed_last d) * ec_eps cfg * 10000000 / free_shares x p
  | _, _ => bidx x p
  end.
(** what [u] has earned at pool [p] and not claimed, as of [now] *)
Definition bclaimable (now : Z) (x : Ext) (p u : Addr) : Z :=
  buacc x p u + ub_shares (get_ub x p u) * (bindex_at now x p - buidx x p u) / 10000000.

(** the same with the sum of the users' shares *)
Definition fidx (now : Z) (x : Ext) (p : Addr) : Z :=
  match bs_ecfg (x_bs x) !! p, bs_edata (x_bs x) !! p with
  | Some cfg, Some d =>
      ed_index d + if usum ub_shares x p =? 0 then 0 else Z.max 0 (Z.min (ec_exp cfg) now - ed_last d) * ec_eps cfg * 10000000 / usum ub_shares x p
  | _, _ => bidx x p
  end.
Definition fclaim (now : Z) (x : Ext) (p u : Addr) : Z := buacc x p u + ub_shares (get_ub x p u) * (fidx now x p - buidx x p u) / 10000000.
Lemma bindex_fidx now x p : free_ok x -> bindex_at now x p = fidx now x p.
Proof. intros (_ & H & _). unfold bindex_at, fidx, free_shares. by rewrite H. Qed.
Lemma bclaimable_fclaim now x p u : free_ok x -> bclaimable now x p u = fclaim now x p u.
Proof. intros H. unfold bclaimable, fclaim. by rewrite bindex_fidx. Qed.

Lemma still_fidx now x p : still now x p -> fidx now x p = bidx x p.
Proof.
  intros H. unfold fidx, bidx. destruct (bs_ecfg (x_bs x) !! p) as [cfg|] eqn:Ec; [|done]. destruct (bs_edata (x_bs x) !! p) as [d|] eqn:Ed; [|done]. simpl.
  assert (Z.max 0 (Z.min (ec_exp cfg) now - ed_last d) * ec_eps cfg * 10000000 = 0) as ->; [|rewrite Zdiv_0_l; destruct (_ =? 0); lia].
  destruct (H _ _ Ec Ed) as [?|[?|H0]]; [rewrite Z.max_l by lia; lia|rewrite Z.max_l by lia; lia|rewrite H0; lia].
Qed.
Lemma fidx_same now x x' q : bs_ecfg (x_bs x') !! q = bs_ecfg (x_bs x) !! q -> bs_edata (x_bs x') !! q = bs_edata (x_bs x) !! q ->
  usum ub_shares x' q = usum ub_shares x q -> fidx now x' q = fidx now x q.
Proof. intros H1 H2 H3. unfold fidx, bidx. by rewrite H1, H2, H3. Qed.
Lemma fidx_ge now x p : emis_nonneg x -> users_nonneg x -> bidx x p <= fidx now x p.
Proof.
  intros (_ & _ & He) Hu. unfold fidx, bidx. destruct (bs_ecfg (x_bs x) !! p) as [cfg|] eqn:Ec; [|lia]. destruct (bs_edata (x_bs x) !! p) as [d|] eqn:Ed; simpl; [|lia].
  pose proof (usum_nonneg ub_shares x p Hu) as H0. destruct (Z.eqb_spec (usum ub_shares x p) 0); [lia|]. pose proof (He _ _ Ec).
  assert (0 <= Z.max 0 (Z.min (ec_exp cfg) now - ed_last d) * ec_eps cfg * 10000000 / usum ub_shares x p); [|lia].
  apply Z.div_pos; [|lia]. apply Z.mul_nonneg_nonneg; [|lia]. apply Z.mul_nonneg_nonneg; lia.
Qed.

(** ** The functions *)
Lemma emissions_view c x p u cl n x' : b_emissions c x p (get_pb x p) u (get_ub x p u) cl = Ok (n, x') -> free_ok x -> einv (c_now c) x ->
  (forall q, fidx (c_now c) x' q = fidx (c_now c) x q) /\
  (forall q v, fclaim (c_now c) x' q v = fclaim (c_now c) x q v - if (q =? p) && (v =? u) then n else 0) /\
  (if cl then n = fclaim (c_now c) x p u else n = 0).
Proof.
  intros H Hf (He & Hc & Ht). destruct (bs_ecfg (x_bs x) !! p) as [cfg|] eqn:Ec.
  2:{ apply b_emissions_none in H as [-> ->]; [|done]. split; [done|]. split; [intros; destruct (_ && _); lia|]. destruct cl; [|done].
      destruct (Hc _ Ec) as [H1 H2]. unfold fclaim, fidx, bidx, buacc, buidx. rewrite Ec, H1, H2. simpl. rewrite Z.mul_0_r. done. }
  assert (0 <= ec_eps cfg) as Heps by (by eapply He).
  eapply b_emissions_some in H as (d & d' & ue & Ed & -> & Hd & Hi & _ & Ha & Hcl); [|done|done].
  pose proof (Ht _ _ Ed) as Hle. destruct Hf as (Hu & Hfr & Hq).
  assert (ed_index d' = fidx (c_now c) x p /\ (d' = d \/ ed_last d' = c_now c)) as [Hidx Hd'].
  { unfold fidx. rewrite Ec, Ed. specialize (Hfr p). destruct Hd as [[-> Hw]|(Hl & H1 & H2 & H3 & H4 & H5 & ->)].
    - split; [|by left]. destruct (Z.eqb_spec (usum ub_shares x p) 0) as [|Hne]; [lia|].
      assert (Z.max 0 (Z.min (ec_exp cfg) (c_now c) - ed_last d) * ec_eps cfg * 10000000 = 0) as ->; [|rewrite Zdiv_0_l; lia].
      destruct Hw as [?|[?|[->|?]]]; [rewrite Z.max_l by lia; lia|rewrite Z.max_l by lia; lia|lia|].
      exfalso. pose proof (usum_nonneg ub_shares x p Hu). specialize (Hq p). lia.
    - split; [|by right]. rewrite Hfr in *. rewrite (proj2 (Z.eqb_neq _ _)) by lia. rewrite Z.max_r by lia. done. }
  set (x' := set_buemis (set_bedata x p d') p u ue).
  assert (forall q, fidx (c_now c) x' q = fidx (c_now c) x q) as Hfi.
  { intros q. destruct (decide (q = p)) as [->|Hne].
    - destruct Hd' as [->|Hl].
      + apply fidx_same; [done| |done]. unfold x'. simpl. by rewrite lookup_insert.
      + rewrite <- Hidx. unfold fidx, x'. simpl. rewrite Ec, lookup_insert. rewrite Hl. rewrite Z.max_l by lia. rewrite !Z.mul_0_l, Zdiv_0_l. destruct (_ =? 0); lia.
    - apply fidx_same; [done| |done]. unfold x'. simpl. by rewrite lookup_insert_ne. }
  split; [done|]. rewrite Hidx in Ha. fold (fclaim (c_now c) x p u) in Ha. split; [|destruct cl; lia].
  intros q v. destruct (Z.eqb_spec q p) as [->|Hne]; simpl.
  - destruct (Z.eqb_spec v u) as [->|Hnv].
    + unfold fclaim at 1. rewrite Hfi. unfold x', buacc, buidx. simpl. rewrite lookup_insert. simpl. rewrite Hi, Hidx, Z.sub_diag, Z.mul_0_r, Zdiv_0_l. lia.
    + rewrite Z.sub_0_r. unfold fclaim. rewrite Hfi. unfold x', buacc, buidx. simpl. rewrite lookup_insert_ne by congruence. done.
  - rewrite Z.sub_0_r. unfold fclaim. rewrite Hfi. unfold x', buacc, buidx. simpl. rewrite lookup_insert_ne by congruence. done.
Qed.
Lemma set_ecfg_view c x p nb x' : b_set_ecfg c x p (get_pb x p) nb = Ok x' -> 0 <= nb -> free_ok x -> einv (c_now c) x ->
  (forall q, fidx (c_now c) x' q = fidx (c_now c) x q) /\ bs_user (x_bs x') = bs_user (x_bs x) /\ bs_uemis (x_bs x') = bs_uemis (x_bs x).
Proof.
  intros H Hnb Hf HE. destruct (b_set_ecfg_spec _ _ _ _ _ _ H HE Hnb) as (d' & -> & Hl & Hd). split; [|done]. destruct HE as (He & Hc & Ht). destruct Hf as (Hu & Hfr & Hq).
  intros q. destruct (decide (q = p)) as [->|Hne].
  2:{ apply fidx_same; simpl; rewrite ?lookup_insert_ne; done. }
  assert (forall S, Z.max 0 (Z.min (c_now c + 604800) (c_now c) - c_now c) * S = 0) as Hz by (intros; rewrite Z.max_l by lia; lia).
  unfold fidx at 1. simpl. rewrite !lookup_insert. simpl. rewrite Hl, Hz, Z.mul_0_l, Zdiv_0_l.
  assert (forall b : bool, ed_index d' + (if b then 0 else 0) = ed_index d') as -> by (intros []; lia).
  unfold fidx. destruct (bs_ecfg (x_bs x) !! p) as [cfg|] eqn:Ec.
  - destruct Hd as (d & -> & Hor). specialize (Hfr p). destruct Hor as [[-> Hw]|(H1 & H2 & H3 & ->)].
    + destruct (Z.eqb_spec (usum ub_shares x p) 0) as [|Hne]; [lia|].
      assert (Z.max 0 (Z.min (ec_exp cfg) (c_now c) - ed_last d) * ec_eps cfg * 10000000 = 0) as ->; [|rewrite Zdiv_0_l; lia].
      destruct Hw as [?|[?|[->|?]]]; [rewrite Z.max_l by lia; lia|rewrite Z.max_l by lia; lia|lia|].
      exfalso. pose proof (usum_nonneg ub_shares x p Hu). specialize (Hq p). lia.
    + rewrite Hfr in *. rewrite (proj2 (Z.eqb_neq _ _)) by lia. rewrite Z.max_r by lia. done.
  - unfold bidx. destruct (Hc _ Ec) as [-> _]. done.
Qed.

(** ** One move, one transaction *)
Lemma emove_view c ok em cl x x' : emove c ok em cl x x' -> einv (c_now c) x -> forall q, ~ em q ->
  fidx (c_now c) x' q = fidx (c_now c) x q /\ forall v, ok v -> ~ cl q v -> fclaim (c_now c) x' q v = fclaim (c_now c) x q v.
Proof.
  intros M He q Hq. destruct M as [x x' (S1 & S2 & S3 & _) Hu|x p u n x' Hf H|x p u n x' Hcl Hf H|x x' p u ub (S1 & S2 & S3 & _) Hu Hok Hst|x p np nb x1 x' Hf Hnb H (S1 & S2 & S3 & _) Hu].
  - assert (fidx (c_now c) x' q = fidx (c_now c) x q) as Hfi by (apply fidx_same; [by rewrite S1|by rewrite S2|by apply usum_same]).
    split; [done|]. intros v _ _. unfold fclaim, buacc, buidx. by rewrite Hfi, S3, (get_ub_same _ _ _ _ Hu).
  - destruct (emissions_view _ _ _ _ _ _ _ H Hf He) as (V1 & V2 & ->). split; [done|]. intros v _ _. rewrite V2. destruct (_ && _); lia.
  - destruct (emissions_view _ _ _ _ _ _ _ H Hf He) as (V1 & V2 & _). split; [apply V1|]. intros v _ Hn.
    change (fclaim (c_now c) (add_log (EvBClaim p u n) x') q v) with (fclaim (c_now c) x' q v). rewrite V2.
    destruct (Z.eqb_spec q p) as [->|]; [|simpl; lia]. destruct (Z.eqb_spec v u) as [->|]; [done|simpl; lia].
  - pose proof (usum_upd ub_shares x x' p u ub q eq_refl Hu) as Hus.
    assert (forall r v, (r, v) <> (p, u) -> get_ub x' r v = get_ub x r v) as Hgu by (intros r v Hne; unfold get_ub; rewrite Hu, lookup_insert_ne by congruence; done).
    assert (get_ub x' p u = ub) as Hgp by (unfold get_ub; by rewrite Hu, lookup_insert).
    assert (fidx (c_now c) x' q = fidx (c_now c) x q /\ (q = p -> ub_shares ub = ub_shares (get_ub x p u) \/ still (c_now c) x p)) as [Hfi Hwhy].
    { destruct (Z.eqb_spec p q) as [->|Hne].
      - destruct Hst as [Hs|[Hs|Hs]]; [|done|].
        + split; [|by left]. apply fidx_same; [by rewrite S1|by rewrite S2|lia].
        + split; [|by right]. assert (still (c_now c) x' q) as Hs' by (intros cf d; rewrite S1, S2; apply Hs).
          rewrite (still_fidx _ _ _ Hs), (still_fidx _ _ _ Hs'). unfold bidx. by rewrite S2.
      - split; [|by intros ->]. apply fidx_same; [by rewrite S1|by rewrite S2|lia]. }
    split; [done|]. intros v Hv _. unfold fclaim. assert (buacc x' q v = buacc x q v /\ buidx x' q v = buidx x q v) as [-> ->] by (unfold buacc, buidx; by rewrite S3). rewrite Hfi.
    destruct (decide ((q, v) = (p, u))) as [[= -> ->]|Hne]; [|by rewrite (Hgu _ _ Hne)]. rewrite Hgp.
    destruct (Hwhy eq_refl) as [->|Hs]; [done|]. destruct (Hok Hv) as [->|Hup]; [done|].
    rewrite (still_fidx _ _ _ Hs). rewrite Hup, Z.sub_diag, !Z.mul_0_r. done.
  - destruct (set_ecfg_view _ _ _ _ _ H Hnb Hf He) as (V1 & V2 & V3).
    change (fidx (c_now c) (add_log (EvAlloc p np nb) x') q) with (fidx (c_now c) x' q).
    assert (fidx (c_now c) x' q = fidx (c_now c) x q) as Hfi. { rewrite <- V1. apply fidx_same; [by rewrite S1|by rewrite S2|by apply usum_same]. }
    split; [done|]. intros v _ _. change (fclaim (c_now c) (add_log (EvAlloc p np nb) x') q v) with (fclaim (c_now c) x' q v).
    unfold fclaim, buacc, buidx. assert (bs_user (x_bs x') = bs_user (x_bs x)) as Hu' by congruence. by rewrite Hfi, S3, V3, (get_ub_same _ _ _ _ Hu').
Qed.
Lemma emoves_view c ok em cl x x' : emoves c ok em cl x x' -> einv (c_now c) x -> forall q, ~ em q ->
  fidx (c_now c) x' q = fidx (c_now c) x q /\ forall v, ok v -> ~ cl q v -> fclaim (c_now c) x' q v = fclaim (c_now c) x q v.
Proof.
  induction 1 as [|x y z M _ IH]; [done|]. intros He q Hq. destruct (emove_view _ _ _ _ _ _ M He q Hq) as [A1 A2].
  destruct (IH (emove_einv _ _ _ _ _ _ M He) q Hq) as [B1 B2]. split; [congruence|]. intros v Hv Hc. rewrite B2, A2; done.
Qed.
(** what is recorded for a user does not fall, except by his own claims *)
Lemma emove_acc c ok em cl x x' : emove c ok em cl x x' -> einv (c_now c) x -> iinv x -> forall q v, ~ cl q v -> buacc x q v <= buacc x' q v.
Proof.
  assert (forall x p u cl n x', b_emissions c x p (get_pb x p) u (get_ub x p u) cl = Ok (n, x') -> free_ok x -> einv (c_now c) x -> iinv x ->
    forall q v, (q, v) <> (p, u) \/ cl = false -> buacc x q v <= buacc x' q v) as Hem.
  { clear. intros x p u cl n x' H Hf HE I q v Hor. pose proof (emissions_view _ _ _ _ _ _ _ H Hf HE) as (_ & _ & V3). destruct HE as (He & Hc & Ht). destruct (bs_ecfg (x_bs x) !! p) as [cfg|] eqn:Ec.
    2:{ apply b_emissions_none in H as [_ ->]; [lia|done]. }
    assert (0 <= ec_eps cfg) as Heps by (by eapply He). assert (0 <= ub_shares (get_ub x p u)) as Hs by (apply users_get; apply Hf).
    pose proof I as (I1 & _). specialize (I1 p u).
    eapply b_emissions_some in H as (d & d' & ue & Ed & -> & Hd & Hi & _ & Ha & Hcl); [|done|done].
    unfold buacc at 2. simpl. destruct (decide ((p, u) = (q, v))) as [[= -> ->]|Hne].
    - rewrite lookup_insert. simpl. destruct Hor as [Hx|Hx]; [done|]. subst cl. subst n.
      assert (buidx x q v <= ed_index d').
      { unfold bidx in I1. rewrite Ed in I1. simpl in I1. destruct Hd as [[-> _]|(_ & ? & ? & _ & _ & ? & ->)]; [lia|].
        assert (0 <= (Z.min (ec_exp cfg) (c_now c) - ed_last d) * ec_eps cfg * 10000000 / (pb_shares (get_pb x q) - pb_q4w (get_pb x q))); [|lia].
        apply Z.div_pos; [|lia]. apply Z.mul_nonneg_nonneg; [|lia]. apply Z.mul_nonneg_nonneg; lia. }
      assert (0 <= ub_shares (get_ub x q v) * (ed_index d' - buidx x q v) / 10000000); [|lia]. apply Z.div_pos; [|lia]. apply Z.mul_nonneg_nonneg; lia.
    - rewrite lookup_insert_ne by congruence. unfold buacc. lia. }
  intros M He I q v Hc. destruct M as [x x' (S1 & S2 & S3 & _) Hu|x p u n x' Hf H|x p u n x' Hcl Hf H|x x' p u ub (S1 & S2 & S3 & _) Hu Hok Hst|x p np nb x1 x' Hf Hnb H (S1 & S2 & S3 & _) Hu].
  - unfold buacc. rewrite S3. lia.
  - eapply Hem; try done. by right.
  - change (buacc (add_log (EvBClaim p u n) x') q v) with (buacc x' q v). eapply Hem; try done. left. congruence.
  - unfold buacc. rewrite S3. lia.
  - destruct (set_ecfg_view _ _ _ _ _ H Hnb Hf He) as (_ & _ & V3). unfold buacc. simpl. rewrite S3, V3. lia.
Qed.
Lemma emoves_acc c ok em cl x x' : emoves c ok em cl x x' -> 0 <= c_now c -> einv (c_now c) x -> iinv x -> forall q v, ~ cl q v -> buacc x q v <= buacc x' q v.
Proof.
  induction 1 as [|x y z M _ IH]; [intros; lia|]. intros Hn He I q v Hc. pose proof (emove_acc _ _ _ _ _ _ M He I q v Hc).
  pose proof (IH Hn (emove_einv _ _ _ _ _ _ M He) (emove_iinv _ _ _ _ _ _ Hn M He I) q v Hc). lia.
Qed.
Lemma fidx_later now now' x p : now <= now' -> emis_nonneg x -> users_nonneg x -> fidx now x p <= fidx now' x p.
Proof.
  intros Hn (_ & _ & He) Hu. unfold fidx. destruct (bs_ecfg (x_bs x) !! p) as [cfg|] eqn:Ec; [|lia]. destruct (bs_edata (x_bs x) !! p) as [d|] eqn:Ed; [|lia].
  pose proof (usum_nonneg ub_shares x p Hu) as H0. destruct (Z.eqb_spec (usum ub_shares x p) 0); [lia|]. pose proof (He _ _ Ec). apply Z.add_le_mono_l.
  apply Z.div_le_mono; [lia|]. apply Z.mul_le_mono_nonneg_r; [lia|]. apply Z.mul_le_mono_nonneg_r; lia.
Qed.

(** ** C76: what others do does not touch it *)
(** [u] claims at the pool [p] *)
Definition is_bclaim (p u : Addr) (o : Op) : Prop := exists sg ps to lp, o = OExt sg (BClaim u ps to lp) /\ p ∈ ps.
(** somebody else's claim is deposited for [u] *)
Definition credits (u : Addr) (o : Op) : Prop := exists sg f ps lp, o = OExt sg (BClaim f ps u lp) /\ f <> u.
(** the record of a user is not touched by the claims of others *)
Lemma claim_record c f ps to lp x n x' : b_claim c x f ps to lp = Ok (n, x') -> emis_nonneg x -> users_nonneg x ->
  forall q v, v <> f -> bs_uemis (x_bs x') !! (q, v) = bs_uemis (x_bs x) !! (q, v).
Proof.
  intros H He Hu q v Hv. unfold b_claim in H. mon1 H. mon1 H. apply bind_ok in H as ([[n1 m1] x1] & H1 & H2).
  assert (bs_uemis (x_bs x1) !! (q, v) = bs_uemis (x_bs x) !! (q, v)) as Hx.
  { clear H2 G. revert H1 He Hu. generalize 0, (∅ : gmap Addr Z). revert x. induction ps as [|p ps IH]; intros x n0 m0 H1 He Hu; simpl in H1; [by mon H1|].
    apply bind_ok in H1 as ([[n2 m2] x2] & Ee & H1). unfold claim_one in Ee. apply bind_ok in Ee as ([a x3] & Ex & E'). mon1 E'. apply Ok_inj in E'. simplify_eq.
    assert (users_nonneg x3) as Hu3. { pose proof (emis_frame_fields _ _ (emis_frame_b _ _ _ _ _ _ _ _ _ Ex)) as ([Hsb _] & _). intros p0 u0 b0. rewrite Hsb. apply Hu. }
    pose proof (b_emissions_nonneg _ _ _ _ _ _ _ _ _ Ex He ltac:(by apply users_get)) as [He3 _].
    rewrite (IH _ _ _ H1) by done. simpl. destruct (bs_ecfg (x_bs x) !! p) as [cfg|] eqn:Ec; [|by apply b_emissions_none in Ex as [_ ->]].
    eapply b_emissions_some in Ex as (d & d' & ue & _ & -> & _); [|done|by eapply He]. simpl. rewrite lookup_insert_ne by congruence. done. }
  destruct (0 <? n1); mon H2; [|done].
  match goal with E : foldM (claim_dep _ _ _ _) ?y _ = Ok _ |- _ => assert (bs_uemis (x_bs y) !! (q, v) = bs_uemis (x_bs x) !! (q, v)) as Hy by exact Hx; clear Hx; revert Hy E; generalize y end.
  clear. induction ps as [|p ps IH]; intros y Hy E; simpl in E; [by mon E|]. mon1 E. match goal with E : claim_dep _ _ _ _ _ _ = Ok _ |- _ => unfold claim_dep in E; mon E end. by eapply IH; [|exact E].
Qed.
Theorem C76_others_untouched : forall w o p u out w',
  reachable w -> exec w o = Ok (out, w') -> ~ is_bclaim p u o ->
  bclaimable (w_now w) (w_ext w) p u <= bclaimable (w_now w') (w_ext w') p u /\
  (~ credits u o -> w_now w' = w_now w -> free_shares (w_ext w) p <> 0 -> bclaimable (w_now w') (w_ext w') p u = bclaimable (w_now w) (w_ext w) p u).
Proof.
  intros w o p u out w' Hr E Hcl. pose proof (reachable_step _ _ _ _ Hr E) as Hr'. destruct (reachable_ginv w Hr) as [Hb He]. destruct (reachable_ginv w' Hr') as [Hb' He'].
  pose proof (binv_free _ _ Hb) as Hf. pose proof (binv_free _ _ Hb') as Hf'. rewrite !bclaimable_fclaim by done.
  pose proof (exec_emoves _ _ _ _ E Hf He (fun p => binv_pool _ _ p Hb)) as Hm. pose proof (exec_now _ _ _ _ E) as Hn.
  assert (not_credited o u \/ credits u o) as H1. { destruct o as [sg o| | | | | | | | |]; try (by left). destruct o; try (by left). simpl. destruct (decide (from = u)); [by left; left|]. destruct (decide (to = u)) as [->|]; [|by left; right]. right. do 4 eexists. done. }
  assert (~ claims_at o p u) as H2. { destruct o as [sg o| | | | | | | | |]; try tauto. destruct o; try tauto. simpl. intros [-> Hp]. apply Hcl. do 4 eexists. done. }
  pose proof (reachable_iinv w Hr) as I. pose proof (reachable_iinv w' Hr') as I'. pose proof (reachable_time _ Hr) as Ht.
  assert (0 <= ub_shares (get_ub (w_ext w') p u)) as Hs' by (apply users_get; apply Hf').
  assert (usum ub_shares (w_ext w) p = free_shares (w_ext w) p) as Hus. { destruct Hf as (_ & Hf & _). by rewrite <- Hf. }
  change (w_now w) with (c_now (ctx w (sig_of o))) in He. destruct (decide (free_shares (w_ext w) p = 0)) as [Hz|Hnz].
  - split; [|done]. assert (ub_shares (get_ub (w_ext w) p u) = 0) as Hsu.
    { assert (ub_shares (get_ub (w_ext w) p u) <= usum ub_shares (w_ext w) p).
      { pose proof (usum_list ub_shares (w_ext w) p [u] (proj1 Hf) eq_refl ltac:(apply NoDup_singleton)) as A. simpl in A. lia. }
      pose proof (users_get _ p u (proj1 Hf)). lia. }
    assert (0 <= c_now (ctx w (sig_of o))) as Ht' by (simpl; lia).
    pose proof (emoves_acc _ _ _ _ _ _ Hm Ht' He I p u H2) as Hacc. unfold fclaim. rewrite Hsu. rewrite Z.mul_0_l, Zdiv_0_l.
    destruct I' as (I' & _). specialize (I' p u). pose proof (fidx_ge (w_now w') (w_ext w') p (proj1 He') (proj1 Hf')).
    assert (0 <= ub_shares (get_ub (w_ext w') p u) * (fidx (w_now w') (w_ext w') p - buidx (w_ext w') p u) / 10000000); [|lia].
    apply Z.div_pos; [|lia]. apply Z.mul_nonneg_nonneg; lia.
  - assert (~ usum ub_shares (w_ext w) p = 0) as Hem by lia. destruct (emoves_view _ _ _ _ _ _ Hm He p Hem) as [V1 V]. specialize (V u).
    assert (fclaim (w_now w) (w_ext w) p u <= fclaim (w_now w) (w_ext w') p u) as Hle.
    { destruct H1 as [H1|(sg & f & ps & lp & -> & Hne)]; [specialize (V H1 H2); simpl in V; lia|]. simpl in V1.
      pose proof (exec_user _ _ _ _ p u E Hr) as Hx. assert (ub_shares (get_ub (w_ext w) p u) <= ub_shares (get_ub (w_ext w') p u)) as Hsh.
      { destruct Hx as [Hs Hbb|sg' n m Ho Hs Hmm Hbb|sg' n Ho Hs Hnn Hlen Hbb|sg' n q' Ho Hs Hnn Htt Hbb|sg' n Ho Hs Hnn Hd|sg' f' ps' lp' m Ho Hs Hmm Hbb]; try discriminate.
        - unfold user_bal in Hbb. rewrite Hbb. lia.
        - unfold user_bal in Hbb. rewrite Hbb. simpl. lia. }
      unfold exec in E. mon E. simpl in *. unfold ret_z in *. mon E0.
      match goal with E : b_claim _ _ _ _ _ _ = Ok _ |- _ => pose proof (claim_record _ _ _ _ _ _ _ _ E (proj1 He) (proj1 Hf) p u ltac:(congruence)) as Hrec end.
      unfold fclaim. rewrite V1. assert (buacc e p u = buacc (w_ext w) p u /\ buidx e p u = buidx (w_ext w) p u) as [-> ->] by (unfold buacc, buidx; by rewrite Hrec).
      apply Z.add_le_mono_l. apply Z.div_le_mono; [lia|]. apply Z.mul_le_mono_nonneg_r; [|lia].
      destruct I as (I & _). specialize (I p u). pose proof (fidx_ge (w_now w) (w_ext w) p (proj1 He) (proj1 Hf)). lia. }
    split. 2:{ intros Hcr Hnn _. destruct H1 as [H1|]; [|done]. rewrite Hnn. by apply V. }
    transitivity (fclaim (w_now w) (w_ext w') p u); [exact Hle|]. unfold fclaim. apply Z.add_le_mono_l. apply Z.div_le_mono; [lia|]. apply Z.mul_le_mono_nonneg_l; [done|].
    pose proof (fidx_later (w_now w) (w_now w') (w_ext w') p Hn (proj1 He') (proj1 Hf')). lia.
Qed.

(** ** C76: a claim pays exactly what was earned *)
Lemma claim_loop_exact c u ps : forall n m x n' m' x', foldM (claim_one c u) (n, m, x) ps = Ok (n', m', x') -> free_ok x -> einv (c_now c) x ->
  n' = n + sumz (fun p => fclaim (c_now c) x p u) (remove_dups ps) /\
  (forall p, fclaim (c_now c) x' p u = if decide (p ∈ ps) then 0 else fclaim (c_now c) x p u) /\ same_bal x x' /\ einv (c_now c) x'.
Proof.
  induction ps as [|p ps IH]; intros n m x n' m' x' H Hf HE; simpl in H.
  { mon H. split; [unfold sumz; simpl; lia|]. split; [|by split]. intros q. rewrite decide_False; [done|]. apply not_elem_of_nil. }
  apply bind_ok in H as ([[n1 m1] x1] & H1 & H). unfold claim_one in H1. apply bind_ok in H1 as ([a x2] & E & H1). mon1 H1. apply Ok_inj in H1. simplify_eq.
  match goal with E : i128 _ = Ok _ |- _ => apply i128_ok in E as [-> _] end.
  destruct (emissions_view _ _ _ _ _ _ _ E Hf HE) as (V1 & V2 & V3).
  pose proof (emis_frame_fields _ _ (emis_frame_b _ _ _ _ _ _ _ _ _ E)) as (Hsb & _).
  assert (einv (c_now c) x2) as HE2 by (eapply b_emissions_einv; [exact E|by apply users_get, Hf|done]).
  assert (free_ok (add_log (EvBClaim p u a) x2)) as Hf2 by (eapply (free_ok_bal x2); [by split|]; by eapply free_ok_bal).
  destruct (IH _ _ _ _ _ _ H Hf2 HE2) as (I1 & I2 & I3 & I4).
  assert (forall q, fclaim (c_now c) (add_log (EvBClaim p u a) x2) q u = if decide (q = p) then 0 else fclaim (c_now c) x q u) as Hq.
  { intros q. change (fclaim (c_now c) (add_log (EvBClaim p u a) x2) q u) with (fclaim (c_now c) x2 q u). rewrite V2, Z.eqb_refl, andb_true_r.
    destruct (decide (q = p)) as [->|Hne]; [rewrite Z.eqb_refl; lia|]. rewrite (proj2 (Z.eqb_neq _ _)) by done. lia. }
  split; [|split; [|split]].
  - rewrite I1. cbn [remove_dups]. destruct (decide_rel elem_of p ps) as [Hin|Hnin].
    + rewrite (sumz_upd (fun q => fclaim (c_now c) x q u) _ (remove_dups ps) p); [|apply NoDup_remove_dups|by apply elem_of_remove_dups|intros b Hb; rewrite Hq; by rewrite decide_False].
      rewrite Hq, decide_True by done. lia.
    + change (sumz (fun q => fclaim (c_now c) x q u) (p :: remove_dups ps)) with (fclaim (c_now c) x p u + sumz (fun q => fclaim (c_now c) x q u) (remove_dups ps)).
      rewrite <- V3. rewrite <- Z.add_assoc. f_equal. f_equal. apply sumz_ext. intros b Hb. rewrite Hq. rewrite decide_False; [done|]. intros ->. apply Hnin. by apply elem_of_remove_dups.
  - intros q. rewrite I2, Hq. destruct (decide (q ∈ ps)) as [Hi|Hi].
    + rewrite decide_True; [done|by right].
    + destruct (decide (q = p)) as [->|Hne]; [rewrite decide_True; [done|by left]|]. rewrite decide_False; [done|]. rewrite elem_of_cons. tauto.
  - destruct Hsb, I3. split; simpl in *; congruence.
  - done.
Qed.

(** A claim pays the sum of what the claimer has earned at the pools he names, each counted once; afterwards there is nothing left to claim at
    the pools of which some shares were not queued. *)
Theorem C76_claim_exact : forall w sg u ps to lp n w',
  reachable w -> exec w (OExt sg (BClaim u ps to lp)) = Ok (OutZ n, w') ->
  n = sumz (fun p => bclaimable (w_now w) (w_ext w) p u) (remove_dups ps) /\
  forall p, p ∈ ps -> free_shares (w_ext w) p <> 0 -> bclaimable (w_now w') (w_ext w') p u = 0.
Proof.
  intros w sg u ps to lp n w' Hr E. pose proof (reachable_step _ _ _ _ Hr E) as Hr'. destruct (reachable_ginv w Hr) as [Hb He]. destruct (reachable_ginv w' Hr') as [Hb' He'].
  pose proof (binv_free _ _ Hb) as Hf. pose proof (binv_free _ _ Hb') as Hf'.
  unfold exec in E. mon E. simpl in *. unfold ret_z in *. mon E0.
  match goal with E : b_claim _ _ _ _ _ _ = Ok _ |- _ => rename E into Ec end. unfold b_claim in Ec. mon1 Ec. mon1 Ec. apply bind_ok in Ec as ([[n1 m1] x1] & H1 & H2).
  destruct (claim_loop_exact _ _ _ _ _ _ _ _ _ H1 Hf He) as (I1 & I2 & I3 & I4). simpl in I1, I2, I4.
  assert (n = n1) as ->. { destruct (0 <? n1); mon H2; congruence. }
  split. { rewrite I1. rewrite Z.add_0_l. apply sumz_ext. intros p _. by rewrite bclaimable_fclaim. }
  intros p Hp Hfs. rewrite bclaimable_fclaim by done.
  destruct (claim_loop_emoves (ctx w sg) u ps [] 0 ∅ (w_ext w) n1 m1 x1 (fun v => v = u) (fun p => usum ub_shares (w_ext w) p = 0) (fun _ _ => True) ltac:(done) H1 Hf (proj1 He) (proj1 (proj2 He)) (proj2 (proj2 He))) as (_ & _ & Q3).
  { intros q Hq. by apply elem_of_nil in Hq. } { intros q Hq. pose proof (binv_pool _ _ q Hb). destruct Hf as (_ & Hf & _). rewrite <- Hf. lia. }
  assert (~ usum ub_shares (w_ext w) p = 0) as Hem. { destruct Hf as (_ & Hf & _). rewrite <- Hf. exact Hfs. }
  assert (fclaim (w_now w) x1 p u = 0) as Hz. { rewrite I2. by rewrite decide_True. }
  destruct (0 <? n1); mon H2; [|done].
  match goal with E : foldM (claim_dep _ _ _ _) ?y _ = Ok _ |- _ => assert (fclaim (w_now w) y p u = 0) as Hy by exact Hz; assert (einv (w_now w) y) as Hey by exact I4;
     assert (forall q, q ∈ ps -> uptodate y q u /\ (usum ub_shares (w_ext w) q = 0 \/ still (w_now w) y q)) as Q3' by exact Q3;
     pose proof (claim_deps_emoves (ctx w sg) _ _ _ _ _ _ _ (fun v => v = u) (fun p => usum ub_shares (w_ext w) p = 0) (fun _ _ => False) E) as Hd;
     clear E; generalize dependent y end.
  intros y Hy Hey Q3' Hd. destruct (emoves_view _ _ _ _ _ _ (Hd ltac:(by intros -> q Hq; apply Q3') ltac:(intros q Hq; by apply Q3')) Hey p Hem) as [_ V].
  rewrite <- Hy. apply V; [done|tauto].
Qed.
