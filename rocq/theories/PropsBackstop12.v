(** * What a backstop claim credits, and that earned emissions can be claimed (C78) *)
From Verif Require Import Base Types Token Emitter Factory Backstop PoolReserve PoolUser PoolHealth
  PoolAuction PoolSubmit PoolEmis PoolAdmin World Facts XMove Spec FrameFacts PoolFrame PoolCfg BackMoves BackInv BackEmis
  PropsEmitter PropsAdmin PropsBackstop PropsBackstop2 PropsBackstop3 PropsBackstop4 PropsBackstop5 PoolInv PoolReach PoolTx PropsAdmin2
  PoolLive PropsBackstop6 PropsBackstop9 PropsBackstop10.
From Verif Require PropsPool16.

(** ** Specification *)
(** how often [p] occurs in the list given to a claim *)
Definition times (p : Addr) (ps : list Addr) : nat := length (filter (fun q => q = p) ps).
(** what [u] has earned at [p] and not claimed *)
Definition earned (w : World) (p u : Addr) : Z := bclaimable (w_now w) (w_ext w) p u.
(** the part of the [lp] backstop tokens bought with the [n] BLND claimed that is credited at pool [p] *)
Definition lp_part (w : World) (u : Addr) (ps : list Addr) (lp n : Z) (p : Addr) : Z :=
  if decide (times p ps = 1%nat) then lp * earned w p u / n else 0.

(** ** The two loops *)
Lemma times_cons p q ps : times p (q :: ps) = ((if decide (q = p) then 1 else 0) + times p ps)%nat.
Proof. unfold times. rewrite filter_cons. by destruct (decide (q = p)). Qed.
Lemma times_in p ps : p ∈ ps <-> times p ps <> 0%nat.
Proof.
  induction ps as [|q ps IH]; [split; [by intros ?%elem_of_nil|done]|]. rewrite times_cons, elem_of_cons, IH. destruct (decide (q = p)) as [->|Hne]; [split; [lia|by left]|].
  split; [intros [->|?]; [done|lia]|intros ?; right; lia].
Qed.
Lemma nodup_times p ps : NoDup ps -> p ∈ ps -> times p ps = 1%nat.
Proof.
  induction ps as [|q ps IH]; intros Hn Hp; [by apply elem_of_nil in Hp|]. apply NoDup_cons in Hn as [Hq Hn]. rewrite times_cons. destruct (decide (q = p)) as [->|Hne].
  - destruct (decide (times p ps = 0%nat)) as [->|Hx]; [done|]. by apply times_in in Hx.
  - apply elem_of_cons in Hp as [->|Hp]; [done|]. by apply IH.
Qed.
Lemma claim_loop_map c u ps : forall n m x n' m' x', foldM (claim_one c u) (n, m, x) ps = Ok (n', m', x') -> free_ok x -> einv (c_now c) x ->
  bfields x x' /\
  forall p, m' !! p = if decide (p ∈ ps) then Some (if decide (times p ps = 1%nat) then fclaim (c_now c) x p u else 0) else m !! p.
Proof.
  induction ps as [|p ps IH]; intros n m x n' m' x' H Hf HE; simpl in H.
  { mon H. split; [apply bfields_refl|]. intros q. rewrite decide_False; [done|]. apply not_elem_of_nil. }
  apply bind_ok in H as ([[n1 m1] x1] & H1 & H). unfold claim_one in H1. apply bind_ok in H1 as ([a x2] & E & H1). mon1 H1. apply Ok_inj in H1. simplify_eq.
  destruct (emissions_view _ _ _ _ _ _ _ E Hf HE) as (V1 & V2 & V3).
  pose proof (emis_frame_fields _ _ (emis_frame_b _ _ _ _ _ _ _ _ _ E)) as Hsb.
  assert (einv (c_now c) x2) as HE2 by (eapply b_emissions_einv; [exact E|by apply users_get, Hf|done]).
  assert (free_ok (add_log (EvBClaim p u a) x2)) as Hf2 by (eapply (free_ok_bal x2); [by split|]; eapply free_ok_bal; [apply Hsb|done]).
  destruct (IH _ _ _ _ _ _ H Hf2 HE2) as (I1 & I2).
  split. { eapply bfields_trans; [|exact I1]. exact Hsb. }
  assert (forall q, fclaim (c_now c) (add_log (EvBClaim p u a) x2) q u = if decide (q = p) then 0 else fclaim (c_now c) x q u) as Hq.
  { intros q. change (fclaim (c_now c) (add_log (EvBClaim p u a) x2) q u) with (fclaim (c_now c) x2 q u). rewrite V2, Z.eqb_refl, andb_true_r.
    destruct (decide (q = p)) as [->|Hne]; [rewrite Z.eqb_refl; lia|]. rewrite (proj2 (Z.eqb_neq _ _)) by done. lia. }
  intros q. rewrite I2, Hq, times_cons. destruct (decide (q = p)) as [->|Hne].
  - rewrite (decide_True (P := p ∈ p :: ps)) by left. rewrite (decide_True (P := p = p)) by done. destruct (decide (p ∈ ps)) as [Hin|Hin].
    + pose proof (proj1 (times_in p ps) Hin). f_equal. destruct (decide (times p ps = 1%nat)); by rewrite decide_False by lia.
    + rewrite lookup_insert. rewrite decide_True; [f_equal; lia|]. destruct (decide (times p ps = 0%nat)) as [->|Hx]; [done|]. by apply times_in in Hx.
  - rewrite lookup_insert_ne by done. rewrite (decide_False (P := p = q)) by done. simpl. destruct (decide (q ∈ ps)) as [Hin|Hin].
    + rewrite (decide_True (P := q ∈ p :: ps)) by (by right). done.
    + rewrite (decide_False (P := q ∈ p :: ps)); [done|]. rewrite elem_of_cons. tauto.
Qed.

Definition shares_at (pb : PoolBal) (n : Z) : Z := if pb_shares pb =? 0 then n else n * pb_shares pb / pb_tokens pb.
Definition dep_of (n lp : Z) (m : gmap Addr Z) (p : Addr) : Z := lp * default 0 (m !! p) / n.
Lemma claim_dep_spec n lp m to x p x' : claim_dep n lp m to x p = Ok x' -> 0 < n -> 0 <= pb_tokens (get_pb x p) -> 
  let pb := get_pb x p in let s := shares_at pb (dep_of n lp m p) in
  is_Some (m !! p) /\ x_tok x' = x_tok x /\
  (forall q, get_pb x' q = if decide (q = p) then mkPoolBal (pb_shares pb + s) (pb_tokens pb + dep_of n lp m p) (pb_q4w pb) else get_pb x q) /\
  (forall q v, get_ub x' q v = if decide (q = p /\ v = to) then mkUserBal (ub_shares (get_ub x p to) + s) (ub_q4w (get_ub x p to)) else get_ub x q v).
Proof.
  intros H Hn Ht. cbv zeta. unfold claim_dep in H. apply bind_ok in H as (a & Ha & H). apply bind_ok in H as (dep & Hd & H). apply bind_ok in H as (s & Hs & H).
  apply bind_ok in H as (pb & Hpb & H). apply bind_ok in H as (ub & Hub & H). apply Ok_inj in H as <-.
  unfold unwrap, unwrap_or in Ha. destruct (m !! p) as [a'|] eqn:Em; [|discriminate]. apply Ok_inj in Ha as <-.
  apply fmul_floor_ok in Hd as [Hd _]; [|done]. assert (dep = dep_of n lp m p) as -> by (unfold dep_of; by rewrite Em). clear Hd.
  assert (s = shares_at (get_pb x p) (dep_of n lp m p)) as ->.
  { unfold to_shares in Hs. unfold shares_at. destruct (pb_shares (get_pb x p) =? 0); [congruence|]. destruct (decide (pb_tokens (get_pb x p) = 0)) as [Hz|Hz].
    - rewrite Hz in Hs. unfold fmul_floor in Hs. apply bind_ok in Hs as (r & _ & Hs). by apply div_floor_zero in Hs.
    - apply fmul_floor_ok in Hs as [-> _]; [done|lia]. }
  unfold pb_deposit in Hpb. apply bind_ok in Hpb as (t1 & H1 & Hpb). apply bind_ok in Hpb as (s1 & H2 & Hpb). apply Ok_inj in Hpb as <-. apply i128_ok in H1 as [-> _]. apply i128_ok in H2 as [-> _].
  unfold ub_add in Hub. apply bind_ok in Hub as (u1 & H3 & Hub). apply Ok_inj in Hub as <-. apply i128_ok in H3 as [-> _].
  split; [done|]. split; [done|]. split.
  - intros q. erewrite (get_pb_upd x _ p _ q) by done. destruct (Z.eqb_spec p q) as [->|Hne]; [by rewrite decide_True|]. by rewrite decide_False.
  - intros q v. erewrite (get_ub_upd x _ p to _ q v) by done. case_bool_decide as Hc.
    + rewrite decide_True by (destruct Hc; done). done.
    + rewrite decide_False; [done|]. intros [-> ->]. by apply Hc.
Qed.
Lemma claim_deps_spec n lp m to : 0 < n -> forall ps x x', foldM (claim_dep n lp m to) x ps = Ok x' ->
  (forall p, 0 <= pb_tokens (get_pb x p)) -> (forall p, 0 <= dep_of n lp m p) -> (forall p, times p ps <> 0%nat -> times p ps <> 1%nat -> dep_of n lp m p = 0) ->
  x_tok x' = x_tok x /\
  (forall p, get_pb x' p = if decide (p ∈ ps) then mkPoolBal (pb_shares (get_pb x p) + shares_at (get_pb x p) (dep_of n lp m p)) (pb_tokens (get_pb x p) + dep_of n lp m p) (pb_q4w (get_pb x p)) else get_pb x p) /\
  (forall p v, get_ub x' p v = if decide (p ∈ ps /\ v = to) then mkUserBal (ub_shares (get_ub x p to) + shares_at (get_pb x p) (dep_of n lp m p)) (ub_q4w (get_ub x p to)) else get_ub x p v).
Proof.
  intros Hn. induction ps as [|p ps IH]; intros x x' H Ht Hd0 Hm; simpl in H.
  { apply Ok_inj in H as <-. split; [done|]. split; [intros p|intros p v]; (rewrite decide_False; [done|]); [apply not_elem_of_nil|intros [?%elem_of_nil _]; done]. }
  apply bind_ok in H as (x1 & H1 & H). destruct (claim_dep_spec _ _ _ _ _ _ _ H1 Hn (Ht p)) as (S1 & S2 & S3 & S4).
  assert (forall q, times q ps <> 0%nat -> times q ps <> 1%nat -> dep_of n lp m q = 0) as Hm'. { intros q Ha Hb. apply Hm; rewrite times_cons; destruct (decide (p = q)); lia. }
  destruct (IH x1 x' H) as (I1 & I2 & I3); [|done|exact Hm'|].
  { intros q. rewrite S3. destruct (decide (q = p)); [simpl; specialize (Ht p); specialize (Hd0 p); lia|apply Ht]. }
  assert (p ∈ ps -> dep_of n lp m p = 0) as Hz. { intros Hp%times_in. apply Hm; rewrite times_cons, decide_True by done; lia. }
  assert (forall pb, shares_at pb 0 = 0) as Hs0. { intros pb. unfold shares_at. destruct (_ =? _); [done|]. by rewrite Z.mul_0_l, Zdiv_0_l. }
  split; [congruence|]. split.
  - intros q. rewrite I2, !S3. destruct (decide (q = p)) as [->|Hne].
    + rewrite (decide_True (P := p ∈ p :: ps)) by left. destruct (decide (p ∈ ps)) as [Hp|Hp]; [|done]. rewrite (Hz Hp), !Hs0. simpl. f_equal; lia.
    + destruct (decide (q ∈ ps)) as [Hq|Hq]; [rewrite (decide_True (P := q ∈ p :: ps)) by (by right); done|rewrite (decide_False (P := q ∈ p :: ps)) by (rewrite elem_of_cons; tauto); done].
  - intros q v. rewrite I3, !S4, !S3. destruct (decide (q = p)) as [->|Hne].
    + destruct (decide (v = to)) as [->|Hv].
      * rewrite (decide_True (P := p ∈ p :: ps /\ to = to)) by (split; [left|done]). rewrite (decide_True (P := p = p /\ to = to)) by done.
        destruct (decide (p ∈ ps /\ to = to)) as [[Hp _]|Hp]; [|done]. rewrite (Hz Hp), !Hs0. simpl. f_equal; lia.
      * rewrite !decide_False by tauto. done.
    + rewrite (decide_False (P := q = p /\ v = to)), (decide_False (P := q = p /\ to = to)) by tauto. destruct (decide (q ∈ ps /\ v = to)) as [[Hq ->]|Hq].
      * rewrite (decide_True (P := q ∈ p :: ps /\ to = to)) by (split; [by right|done]). done.
      * rewrite (decide_False (P := q ∈ p :: ps /\ v = to)); [done|]. rewrite elem_of_cons. tauto.
Qed.

(** ** C78: what a claim credits *)
Lemma fclaim_nonneg w p u : reachable w -> 0 <= fclaim (w_now w) (w_ext w) p u.
Proof.
  intros Hr. destruct (reachable_ginv w Hr) as [Hb He]. pose proof (binv_free _ _ Hb) as Hf. destruct (reachable_iinv w Hr) as (I & _). specialize (I p u).
  pose proof (fidx_ge (w_now w) (w_ext w) p (proj1 He) (proj1 Hf)) as Hx. pose proof (users_get _ p u (proj1 Hf)) as Hs. unfold fclaim.
  assert (0 <= buacc (w_ext w) p u) as Ha. { destruct He as ((_ & He & _) & _). unfold buacc. destruct (bs_uemis (x_bs (w_ext w)) !! (p, u)) eqn:E; [by eapply He in E|done]. }
  assert (0 <= ub_shares (get_ub (w_ext w) p u) * (fidx (w_now w) (w_ext w) p - buidx (w_ext w) p u) / 10000000); [|lia].
  apply Z.div_pos; [|lia]. apply Z.mul_nonneg_nonneg; lia.
Qed.
Lemma earned_nonneg w p u : reachable w -> 0 <= earned w p u.
Proof. intros Hr. unfold earned. rewrite bclaimable_fclaim; [by apply fclaim_nonneg|]. destruct (reachable_ginv w Hr) as [Hb _]. by eapply binv_free. Qed.

Lemma exec_bclaim w sg u ps to lp n w' : exec w (OExt sg (BClaim u ps to lp)) = Ok (OutZ n, w') ->
  w_now w' = w_now w /\ b_claim (ctx w sg) (w_ext w) u ps to lp = Ok (n, w_ext w').
Proof.
  intros E. unfold exec in E. apply assert_ok in E as [_ E]. apply bind_ok in E as ([o y] & E & H). apply Ok_inj in H. simplify_eq. simpl in E. unfold ret_z in E.
  apply bind_ok in E as ([m z] & E & H). apply Ok_inj in H. simplify_eq. done.
Qed.
(** Sum of the rounded parts of [lp]. *)
Lemma parts_sum lp n (f : Addr -> Z) ps : 0 < n ->
  sumz (fun p => lp * f p / n) ps <= lp * sumz f ps / n < sumz (fun p => lp * f p / n) ps + Z.of_nat (length ps) \/ ps = [].
Proof.
  intros Hn. induction ps as [|p ps IH]; [by right|left]. rewrite !sumz_cons. destruct IH as [IH| ->].
  - cbn [length]. pose proof (Z.div_mod (lp * f p) n ltac:(lia)). pose proof (Z.mod_pos_bound (lp * f p) n ltac:(lia)).
    pose proof (Z.div_mod (lp * sumz f ps) n ltac:(lia)). pose proof (Z.mod_pos_bound (lp * sumz f ps) n ltac:(lia)).
    assert (lp * (f p + sumz f ps) = n * (lp * f p / n + lp * sumz f ps / n) + (lp * f p mod n + (lp * sumz f ps) mod n)) as Hx by lia.
    rewrite Hx. rewrite (Z.mul_comm n), Z.div_add_l by lia. set (r := lp * f p mod n + (lp * sumz f ps) mod n) in *.
    assert (0 <= r / n < 2). { split; [apply Z.div_pos; lia|]. apply Z.div_lt_upper_bound; lia. } lia.
  - rewrite !sumz_nil. cbn [length]. rewrite !Z.add_0_r. lia.
Qed.

(** A claim by [u] with the recipient [to] that returns [n]: if [n] is 0 no share, deposit or token moves.  Otherwise [n] BLND leave the backstop
    for the Comet pool and [lp] new LP tokens arrive; every pool named exactly once is credited with its part of them, in proportion to what [u]
    earned there; the recipient receives shares for the part at the price before the claim; nobody else's shares, no queue and no other token
    balance changes.  The parts add up to [lp] up to the rounding, less than one unit per pool, if no pool is named twice. *)
Theorem C78_claim_credits : forall w sg u ps to lp n w',
  reachable w -> exec w (OExt sg (BClaim u ps to lp)) = Ok (OutZ n, w') ->
  let part p := if n =? 0 then 0 else lp_part w u ps lp n p in
  let blnd := bs_blnd (x_bs (w_ext w)) in let lpt := bs_token (x_bs (w_ext w)) in
  0 <= n /\
  (forall p, pb_tokens (pool_bal w' p) = pb_tokens (pool_bal w p) + part p /\
     pb_shares (pool_bal w' p) = pb_shares (pool_bal w p) + shares_for w p (part p) /\ pb_q4w (pool_bal w' p) = pb_q4w (pool_bal w p)) /\
  (forall p v, ub_shares (user_bal w' p v) = ub_shares (user_bal w p v) + (if decide (v = to) then shares_for w p (part p) else 0) /\
     ub_q4w (user_bal w' p v) = ub_q4w (user_bal w p v)) /\
  (forall k a, balance (x_tok (w_ext w')) k a = balance (x_tok (w_ext w)) k a +
     (if decide (n <> 0 /\ k = blnd /\ a = lpt) then n else 0) - (if decide (n <> 0 /\ k = blnd /\ a = bs_addr) then n else 0) +
     (if decide (n <> 0 /\ k = lpt /\ a = bs_addr) then lp else 0)) /\
  (NoDup ps -> n <> 0 -> sumz part ps <= lp < sumz part ps + Z.of_nat (length ps)).
Proof.
  intros w sg u ps to lp n w' Hr E part blnd lpt. pose proof (C76_claim_exact _ _ _ _ _ _ _ _ Hr E) as [Hsum _].
  destruct (reachable_ginv w Hr) as [Hb He]. pose proof (binv_free _ _ Hb) as Hf.
  assert (0 <= n) as Hn0. { rewrite Hsum. apply sumz_nonneg. intros p _. by apply earned_nonneg. }
  split; [done|].
  assert (forall p, shares_for w p 0 = 0) as Hs0. { clear. intros p. unfold shares_for. destruct (pb_shares (pool_bal w p) =? 0); [reflexivity|]. by rewrite Z.mul_0_l, Zdiv_0_l. }
  apply exec_bclaim in E as (_ & Ec). unfold b_claim in Ec. mon1 Ec. mon1 Ec. apply bind_ok in Ec as ([[n1 m1] x1] & H1 & H2).
  destruct (claim_loop_map _ _ _ _ _ _ _ _ _ H1 Hf He) as ((M1 & M2 & M3 & M4 & M5) & Mp).
  assert (n = n1) as <-. { destruct (0 <? n1); mon H2; congruence. }
  assert (forall p, get_pb x1 p = get_pb (w_ext w) p) as Hpb by (intros p; apply get_pb_same, M1).
  assert (forall p v, get_ub x1 p v = get_ub (w_ext w) p v) as Hub by (intros p v; apply get_ub_same, M1).
  unfold pool_bal, user_bal. cbn [w_ext].
  destruct (Z.ltb_spec 0 n) as [Hn|Hn].
  2:{ assert (n = 0) as -> by lia. mon H2. unfold part. cbn [Z.eqb]. split; [|split; [|split]].
      - intros p. simpl. rewrite Hpb, Hs0. lia.
      - intros p v. simpl. rewrite Hub, Hs0. destruct (decide (v = to)); split; (done || lia).
      - intros k a. rewrite M5. repeat case_decide; destruct_and?; subst; done || lia.
      - done. }
  assert (forall p, part p = lp_part w u ps lp n p) as Hpart. { intros p. unfold part. by rewrite (proj2 (Z.eqb_neq n 0)) by lia. }
  apply assert_ok in H2 as [_ H2]. apply bind_ok in H2 as (t1 & T1 & H2). apply bind_ok in H2 as (t2 & T2 & H2). apply bind_ok in H2 as (x2 & D & H2). apply Ok_inj in H2. injection H2 as H2. rewrite <- H2. clear H2.
  apply mint_spec in T2 as (L0 & _ & _ & T2). apply tok_move_spec in T1 as (_ & _ & _ & T1 & _).
  assert (forall p, 0 <= dep_of n lp m1 p) as Hd0.
  { intros p. unfold dep_of. rewrite Mp. apply Z.div_pos; [|lia]. apply Z.mul_nonneg_nonneg; [done|]. destruct (decide _); [|simpl; rewrite lookup_empty; done].
    cbn [default]. destruct (decide _); [|done]. by apply (fclaim_nonneg w). }
  match type of D with foldM _ ?y _ = _ => assert (forall p, get_pb y p = get_pb (w_ext w) p) as Hpy by exact Hpb; assert (forall p v, get_ub y p v = get_ub (w_ext w) p v) as Huy by exact Hub;
    assert (x_tok y = t2) as Hty by done; generalize dependent y end. intros y D Hpy Huy Hty.
  destruct (claim_deps_spec n lp m1 to Hn ps _ _ D) as (D1 & D2 & D3).
  { intros p. rewrite Hpy. pose proof (binv_pool _ _ p Hb). lia. } { done. }
  { intros p Ha Hc. unfold dep_of. rewrite Mp. apply times_in in Ha. rewrite decide_True, decide_False by done. simpl. by rewrite Z.mul_0_r, Zdiv_0_l. }
  assert (forall p, (if decide (p ∈ ps) then dep_of n lp m1 p else 0) = part p) as Hdep.
  { intros p. rewrite Hpart. unfold dep_of, lp_part, earned. rewrite Mp. rewrite bclaimable_fclaim by done. destruct (decide (p ∈ ps)) as [Hp|Hp].
    - simpl. destruct (decide (times p ps = 1%nat)); [done|]. by rewrite Z.mul_0_r, Zdiv_0_l.
    - rewrite decide_False; [done|]. intros Hx. apply Hp, times_in. lia. }
  split; [|split; [|split]].
  - intros p. rewrite D2. specialize (Hdep p). rewrite !Hpy. destruct (decide (p ∈ ps)).
    + rewrite Hdep. simpl. split; [done|]. done.
    + rewrite <- Hdep, Hs0. lia.
  - intros p v. rewrite D3. specialize (Hdep p). rewrite !Huy, !Hpy. destruct (decide (p ∈ ps)) as [Hp|Hp].
    + rewrite Hdep. destruct (decide (v = to)) as [->|Hv]; [by rewrite decide_True|]. rewrite decide_False by tauto. split; [lia|done].
    + rewrite decide_False by tauto. rewrite <- Hdep, Hs0. destruct (decide (v = to)); (split; [lia|done]).
  - intros k a. rewrite D1, Hty. rewrite T2, T1, M3, M4, M5. subst blnd lpt. repeat case_bool_decide; repeat case_decide; destruct_and?; subst; try tauto; lia.
  - intros Hnd _. assert (sumz part ps = sumz (fun p => lp * earned w p u / n) ps) as ->.
    { apply sumz_ext. intros p Hp. rewrite Hpart. unfold lp_part. rewrite decide_True; [done|]. by apply nodup_times. }
    destruct (parts_sum lp n (fun p => earned w p u) ps Hn) as [Hx| ->]; [|simpl in Hsum; lia].
    assert (remove_dups ps = ps) as Hrd. { clear - Hnd. induction ps as [|p ps IH]; [done|]. apply NoDup_cons in Hnd as [H1 H2]. cbn [remove_dups]. destruct (decide_rel elem_of p ps); [done|]. by rewrite IH. }
    rewrite Hrd in Hsum. fold (earned w) in Hsum.
    assert (sumz (fun p => earned w p u) ps = n) as Hy by (by rewrite Hsum). rewrite Hy in Hx. rewrite Z.div_mul in Hx by lia. lia.
Qed.

(** ** C78: what was earned is covered *)
Lemma earned_covered w p us : reachable w -> covered (w_ext w) -> NoDup us -> sumz (fun u => earned w p u) us <= unclaimed w p.
Proof.
  intros Hr Hc Hn. destruct (reachable_ginv w Hr) as [Hb He]. pose proof (binv_free _ _ Hb) as Hf. pose proof (fidx_ge (w_now w) (w_ext w) p (proj1 He) (proj1 Hf)) as Hx.
  set (q := fidx (w_now w) (w_ext w) p - bidx (w_ext w) p) in *.
  assert (usum ub_shares (w_ext w) p * q <= 10000000 * remain (w_ext w) p) as Hq.
  { subst q. unfold fidx, remain, bidx. destruct (bs_ecfg (x_bs (w_ext w)) !! p) as [cfg|] eqn:Ec; [|unfold bidx; lia].
    destruct (bs_edata (x_bs (w_ext w)) !! p) as [d|] eqn:Ed; [|simpl; lia]. simpl.
    assert (0 <= ec_eps cfg) as Hep by (destruct He as ((_ & _ & He) & _); by eapply He).
    assert (0 <= ec_eps cfg * Z.max 0 (ec_exp cfg - ed_last d)) as H0 by (apply Z.mul_nonneg_nonneg; lia).
    destruct (Z.eqb_spec (usum ub_shares (w_ext w) p) 0) as [Hz|Hz]; [rewrite Hz; lia|].
    assert (0 <= usum ub_shares (w_ext w) p) as Hs. { pose proof (usum_list ub_shares (w_ext w) p [] (proj1 Hf) eq_refl ltac:(constructor)) as A. simpl in A. lia. }
    set (T := Z.max 0 (Z.min (ec_exp cfg) (w_now w) - ed_last d)).
    assert (T * ec_eps cfg <= ec_eps cfg * Z.max 0 (ec_exp cfg - ed_last d)) as HT by (rewrite Z.mul_comm; apply Z.mul_le_mono_nonneg_l; lia).
    pose proof (Z.mul_div_le (T * ec_eps cfg * 10000000) (usum ub_shares (w_ext w) p) ltac:(lia)). lia. }
  specialize (Hc p us Hn). unfold owed in Hc.
  assert (10000000 * sumz (fun u => earned w p u) us <= sumz (fun u => 10000000 * buacc (w_ext w) p u + ub_shares (get_ub (w_ext w) p u) * (bidx (w_ext w) p - buidx (w_ext w) p u)) us + sumz (fun u => ub_shares (get_ub (w_ext w) p u)) us * q) as Hs.
  { clear Hc Hn. induction us as [|u us IH]; [rewrite !sumz_nil; lia|]. rewrite !sumz_cons. unfold earned at 1. rewrite bclaimable_fclaim by done. unfold fclaim.
    pose proof (Z.mul_div_le (ub_shares (get_ub (w_ext w) p u) * (fidx (w_now w) (w_ext w) p - buidx (w_ext w) p u)) 10000000 ltac:(lia)) as Hd.
    assert (ub_shares (get_ub (w_ext w) p u) * (fidx (w_now w) (w_ext w) p - buidx (w_ext w) p u) = ub_shares (get_ub (w_ext w) p u) * (bidx (w_ext w) p - buidx (w_ext w) p u) + ub_shares (get_ub (w_ext w) p u) * q) as Hd2 by (subst q; ring).
    rewrite Hd2 in *. lia. }
  assert (sumz (fun u => ub_shares (get_ub (w_ext w) p u)) us <= usum ub_shares (w_ext w) p) as Hus by (apply usum_list; [apply Hf|done|done]).
  assert (sumz (fun u => ub_shares (get_ub (w_ext w) p u)) us * q <= usum ub_shares (w_ext w) p * q) by (apply Z.mul_le_mono_nonneg_r; lia).
  unfold unclaimed. lia.
Qed.

(** ** C78: claims succeed *)
Definition same_emis (x x' : Ext) (p u : Addr) : Prop :=
  bs_ecfg (x_bs x') !! p = bs_ecfg (x_bs x) !! p /\ bs_edata (x_bs x') !! p = bs_edata (x_bs x) !! p /\ bs_uemis (x_bs x') !! (p, u) = bs_uemis (x_bs x) !! (p, u).
Lemma emissions_succeed_claim w sg p u x : reachable w -> updatable w p u ->
  bs_ecfg (x_bs x) !! p = bs_ecfg (x_bs (w_ext w)) !! p -> bs_edata (x_bs x) !! p = bs_edata (x_bs (w_ext w)) !! p -> bs_uemis (x_bs x) !! (p, u) = bs_uemis (x_bs (w_ext w)) !! (p, u) ->
  exists n x', b_emissions (ctx w sg) x p (pool_bal w p) u (user_bal w p u) true = Ok (n, x').
Proof.
  intros Hr Hu Q1 Q2 Q3. destruct (reachable_ginv w Hr) as [Hb ((E1 & E2 & E3) & Hc & Ht)]. destruct (reachable_iinv w Hr) as (I1 & I2 & I3).
  pose proof (reachable_time _ Hr) as Hnow. pose proof (binv_pool _ _ p Hb) as [Hsh _]. pose proof (proj1 (bi_get _ _ p u Hb)) as Hus.
  unfold b_emissions. rewrite Q1. destruct (bs_ecfg (x_bs (w_ext w)) !! p) as [cfg|] eqn:Ec; [|eauto].
  destruct (I3 _ _ Ec) as [d Ed]. destruct (Hu _ _ Ec Ed) as [Hfree (F1 & F2 & F3 & F4)].
  pose proof (E3 _ _ Ec) as Heps. pose proof (E1 _ _ Ed) as Hidx. pose proof (Ht _ _ Ed) as Hlast. pose proof (I2 _ _ Ed) as Hl0.
  pose proof (reachable_fit _ Hr p) as [Hfit _]. fold (pool_bal w p) in *. fold (user_bal w p u) in *.
  assert (exists d' x1, b_update_data (ctx w sg) x p (pool_bal w p) cfg = Ok (d', x1) /\ ed_index d' = index_now w p cfg d /\ ed_index d <= ed_index d' /\
    bs_uemis (x_bs x1) = bs_uemis (x_bs x)) as (d' & x1 & -> & Hi & Hmono & Hue).
  { unfold b_update_data. rewrite Q2, Ed. cbn [unwrap bind]. unfold index_now in *. change (c_now (ctx w sg)) with (w_now w).
    destruct (decide (emission_due w p cfg d)) as [Hdue|Hdue].
    - destruct Hdue as (D1 & D2 & D3 & D4). specialize (Hfree (conj D1 (conj D2 (conj D3 D4)))). unfold unqueued in *.
      rewrite (proj2 (Z.leb_gt _ _)), (proj2 (Z.eqb_neq (w_now w) _)), (proj2 (Z.eqb_neq (ec_eps cfg) _)), (proj2 (Z.eqb_neq (pb_shares _) _)) by lia. cbn [orb].
      rewrite (i128_fits (pb_shares (pool_bal w p) - _)) by (unfold i128_min; lia). cbn [bind]. unfold b_nonneg. rewrite (proj2 (Z.ltb_ge _ 0)) by lia. cbn [bind].
      assert ((if ec_exp cfg <? w_now w then ec_exp cfg else w_now w) = Z.min (ec_exp cfg) (w_now w)) as -> by (destruct (Z.ltb_spec (ec_exp cfg) (w_now w)); lia).
      set (dt := Z.min (ec_exp cfg) (w_now w) - ed_last d) in *. assert (0 <= dt <= u64_max) as Hdt by (subst dt; lia).
      rewrite u64_fits by done. cbn [bind]. assert (0 <= dt * ec_eps cfg) as Hm by nia. rewrite i128_fits by (unfold i128_min; lia). cbn [bind].
      unfold fdiv_floor. change (let? r := i128 (dt * ec_eps cfg * SCALAR_7) in div_floor r (pb_shares (pool_bal w p) - pb_q4w (pool_bal w p))) with (fmul_floor (dt * ec_eps cfg) SCALAR_7 (pb_shares (pool_bal w p) - pb_q4w (pool_bal w p))).
      rewrite fmul_floor_fits by (unfold SCALAR_7; lia). cbn [bind]. unfold SCALAR_7.
      assert (0 <= dt * ec_eps cfg * 10000000 / (pb_shares (pool_bal w p) - pb_q4w (pool_bal w p))) by (apply Z.div_pos; lia).
      rewrite i128_fits by (unfold i128_min; lia). cbn [bind]. eexists _, _. split; [done|]. simpl. split; [lia|]. split; [lia|done].
    - assert ((ec_exp cfg <=? ed_last d) || (w_now w =? ed_last d) || (ec_eps cfg =? 0) || (pb_shares (pool_bal w p) =? 0) = true) as ->.
      { destruct (Z.leb_spec (ec_exp cfg) (ed_last d)); [done|]. destruct (Z.eqb_spec (w_now w) (ed_last d)); [done|].
        destruct (Z.eqb_spec (ec_eps cfg) 0); [done|]. destruct (Z.eqb_spec (pb_shares (pool_bal w p)) 0); [done|]. exfalso. apply Hdue. unfold emission_due. lia. }
      exists d, x. split; [done|]. split; [lia|]. split; [lia|done]. }
  cbn [bind]. unfold b_update_user. rewrite Hue, Q3. specialize (I1 p u). unfold user_gain in *. unfold buidx, bidx, buacc in *. rewrite Ed in I1. simpl in I1.
  rewrite <- Hi in F2, F3, F4. set (s := ub_shares (user_bal w p u)) in *.
  destruct (bs_uemis (x_bs (w_ext w)) !! (p, u)) as [ud|] eqn:Eu; simpl in F3, F4, I1.
  - pose proof (E2 _ _ _ Eu) as Hacc. destruct (negb (ue_index ud =? ed_index d') || true); [|eauto]. destruct (s =? 0) eqn:Es; [unfold b_set_user; eauto|].
    assert (0 <= s * (ed_index d' - ue_index ud)) by (subst s; nia).
    rewrite (i128_fits (ed_index d' - ue_index ud)) by (unfold i128_min, i128_max in *; subst s; nia). cbn [bind]. unfold b_nonneg. rewrite (proj2 (Z.ltb_ge _ 0)) by lia. cbn [bind].
    rewrite fmul_floor_fits by (unfold SCALAR_7; lia). cbn [bind]. unfold SCALAR_7.
    assert (0 <= s * (ed_index d' - ue_index ud) / 10000000) by (apply Z.div_pos; lia).
    rewrite i128_fits by (unfold i128_min; lia). cbn [bind]. unfold b_set_user. eauto.
  - destruct (s =? 0) eqn:Es; [unfold b_set_user; eauto|]. rewrite Z.sub_0_r in F3, F4.
    rewrite fmul_floor_fits by (unfold SCALAR_7; subst s; nia). cbn [bind]. unfold b_set_user. eauto.
Qed.
Lemma emissions_other c x p pb u ub cl n x' : b_emissions c x p pb u ub cl = Ok (n, x') -> forall q v, q <> p -> same_emis x x' q v.
Proof.
  intros H q v Hne. unfold b_emissions in H. destruct (bs_ecfg (x_bs x) !! p) as [cfg|]; [|by mon H]. apply bind_ok in H as ([d x1] & H1 & H).
  assert (same_emis x x1 q v) as (S1 & S2 & S3).
  { unfold b_update_data in H1. apply bind_ok in H1 as (d0 & _ & H1). destruct (_ || _); [by mon H1|]. repeat (apply bind_ok in H1 as (? & _ & H1)). apply Ok_inj in H1. simplify_eq.
    unfold same_emis. simpl. by rewrite lookup_insert_ne. }
  assert (forall i acc, same_emis x1 (snd (b_set_user x1 p u i acc cl)) q v) as Hs.
  { intros i acc. unfold b_set_user. destruct cl; unfold same_emis; simpl; (rewrite lookup_insert_ne by congruence; done). }
  assert (same_emis x1 x' q v) as (T1 & T2 & T3).
  { unfold b_update_user in H. destruct (bs_uemis (x_bs x1) !! (p, u)) as [ud|].
    - destruct (_ || _); [|by mon H]. destruct (_ =? 0).
      + apply Ok_inj in H. specialize (Hs (ed_index d) (ue_accrued ud)). by rewrite H in Hs.
      + do 3 (apply bind_ok in H as (? & _ & H)). apply bind_ok in H as (acc & _ & H). apply Ok_inj in H. specialize (Hs (ed_index d) acc). by rewrite H in Hs.
    - destruct (_ =? 0).
      + apply Ok_inj in H. specialize (Hs (ed_index d) 0). by rewrite H in Hs.
      + apply bind_ok in H as (acc & _ & H). apply Ok_inj in H. specialize (Hs (ed_index d) acc). by rewrite H in Hs. }
  unfold same_emis. split; [congruence|]. split; congruence.
Qed.
Lemma fclaim_same now x x' p u : same_emis x x' p u -> same_bal x x' -> fclaim now x' p u = fclaim now x p u.
Proof.
  intros (S1 & S2 & S3) (B1 & B2). unfold fclaim, fidx, buacc, buidx, bidx, usum. by rewrite (get_ub_same _ _ _ _ B1), S1, S2, S3, B1.
Qed.
Lemma claim_loop_total w sg u : reachable w -> forall ps n m x, NoDup ps -> (forall p, p ∈ ps -> updatable w p u /\ same_emis (w_ext w) x p u) -> bfields (w_ext w) x -> einv (w_now w) x ->
  0 <= n -> n + sumz (fun p => earned w p u) ps <= i128_max ->
  exists m' x', foldM (claim_one (ctx w sg) u) (n, m, x) ps = Ok (n + sumz (fun p => earned w p u) ps, m', x').
Proof.
  intros Hr. induction ps as [|p ps IH]; intros n m x Hn Hp Hb He Hn0 Hfit; [rewrite sumz_nil, Z.add_0_r; simpl; eauto|]. rewrite sumz_cons in *. apply NoDup_cons in Hn as [Hnp Hn].
  destruct (Hp p ltac:(left)) as [Hu (S1 & S2 & S3)]. destruct (emissions_succeed_claim w sg p u x Hr Hu S1 S2 S3) as (a & x1 & E).
  destruct (reachable_ginv w Hr) as [Hbi _]. pose proof (binv_free _ _ Hbi) as Hf.
  assert (free_ok x) as Hfx by (eapply free_ok_bal; [apply Hb|done]). unfold pool_bal, user_bal in E.
  assert (get_pb x p = get_pb (w_ext w) p) as Hpb by (apply get_pb_same, Hb). assert (get_ub x p u = get_ub (w_ext w) p u) as Hub by (apply get_ub_same, Hb). rewrite <- Hpb, <- Hub in E.
  destruct (emissions_view _ _ _ _ _ _ _ E Hfx He) as (_ & _ & V3). simpl in V3.
  assert (a = earned w p u) as ->. { rewrite V3. unfold earned. rewrite bclaimable_fclaim by done. apply fclaim_same; [done|apply Hb]. } clear V3.
  assert (0 <= earned w p u) by (by apply earned_nonneg). assert (0 <= sumz (fun p => earned w p u) ps) by (apply sumz_nonneg; intros; by apply earned_nonneg).
  cbn [foldM]. unfold claim_one at 1. rewrite E. cbn [bind]. rewrite i128_ok_nonneg by lia. cbn [bind].
  destruct (IH (n + earned w p u) (<[p := earned w p u]> m) (add_log (EvBClaim p u (earned w p u)) x1) Hn) as (m' & x' & Ei).
  - intros q Hq. destruct (Hp q ltac:(by right)) as [Hu' (T1 & T2 & T3)]. split; [done|]. destruct (emissions_other _ _ _ _ _ _ _ _ _ E q u) as (R1 & R2 & R3); [intros ->; done|].
    unfold same_emis. simpl. split; [congruence|]. split; congruence.
  - eapply bfields_trans; [exact Hb|]. pose proof (emis_frame_fields _ _ (emis_frame_b _ _ _ _ _ _ _ _ _ E)) as Hsb. exact Hsb.
  - change (einv (w_now w) x1). eapply (b_emissions_einv (ctx w sg)); [exact E|apply users_get; apply Hfx|done].
  - lia.
  - lia.
  - exists m', x'. rewrite Ei. do 3 f_equal. lia.
Qed.
(** the deposit of up to [lp] tokens into a pool stays within 128-bit integers, and the pool has not lost all its tokens *)
Definition dep_fits (pb : PoolBal) (lp : Z) : Prop :=
  0 <= pb_shares pb /\ 0 <= pb_tokens pb /\ (pb_shares pb <> 0 -> pb_tokens pb <> 0) /\ lp * pb_shares pb <= i128_max /\ pb_tokens pb + lp <= i128_max /\ pb_shares pb + shares_at pb lp <= i128_max.
Lemma claim_deps_total n lp m to : 0 < n -> 0 <= lp -> lp * n <= i128_max -> forall ps x, NoDup ps ->
  (forall p, p ∈ ps -> (exists a, m !! p = Some a /\ 0 <= a <= n) /\ dep_fits (get_pb x p) lp /\ 0 <= ub_shares (get_ub x p to) <= pb_shares (get_pb x p)) ->
  exists x', foldM (claim_dep n lp m to) x ps = Ok x'.
Proof.
  intros Hn Hlp Hfit. induction ps as [|p ps IH]; intros x Hnd Hp; [simpl; eauto|]. apply NoDup_cons in Hnd as [Hnp Hnd].
  destruct (Hp p ltac:(left)) as ((a & Ha & Ha0) & (F1 & F2 & F3 & F4 & F5 & F6) & Hu).
  assert (0 <= lp * a <= lp * n) as Hla by (split; [apply Z.mul_nonneg_nonneg; lia|apply Z.mul_le_mono_nonneg_l; lia]).
  assert (0 <= lp * a / n <= lp) as Hdep. { split; [apply Z.div_pos; lia|]. apply Z.div_le_upper_bound; lia. }
  assert (exists x1, claim_dep n lp m to x p = Ok x1) as [x1 E].
  { unfold claim_dep. rewrite Ha. cbn [unwrap unwrap_or bind]. rewrite fmul_floor_fits by lia. cbn [bind]. set (dep := lp * a / n) in *.
    assert (to_shares (get_pb x p) dep = Ok (shares_at (get_pb x p) dep) /\ 0 <= shares_at (get_pb x p) dep <= shares_at (get_pb x p) lp) as [-> Hs].
    { unfold to_shares, shares_at. destruct (Z.eqb_spec (pb_shares (get_pb x p)) 0) as [Hz|Hz]; [split; [done|lia]|]. specialize (F3 Hz).
      assert (0 <= dep * pb_shares (get_pb x p) <= lp * pb_shares (get_pb x p)) by (split; [apply Z.mul_nonneg_nonneg; lia|apply Z.mul_le_mono_nonneg_r; lia]).
      rewrite fmul_floor_fits by lia. split; [done|]. split; [apply Z.div_pos; lia|]. apply Z.div_le_mono; lia. }
    cbn [bind]. unfold pb_deposit. rewrite i128_ok_nonneg by lia. cbn [bind]. rewrite i128_ok_nonneg by lia. cbn [bind]. unfold ub_add. rewrite i128_ok_nonneg by lia. cbn [bind]. eauto. }
  cbn [foldM]. rewrite E. cbn [bind]. destruct (claim_dep_spec _ _ _ _ _ _ _ E Hn F2) as (_ & _ & S3 & S4). apply IH; [done|]. intros q Hq. rewrite S3, S4.
  assert (q <> p) by (intros ->; done). rewrite !decide_False by tauto. apply Hp. by right.
Qed.

(** the amounts of a claim of [n] BLND for [lp] LP tokens stay within 128-bit integers *)
Definition claim_fits (w : World) (u : Addr) (ps : list Addr) (lp n : Z) : Prop :=
  (forall p, p ∈ ps -> emis_fit w p u /\ lp * pb_shares (pool_bal w p) <= i128_max /\ pb_tokens (pool_bal w p) + lp <= i128_max /\
     pb_shares (pool_bal w p) + shares_for w p lp <= i128_max) /\
  lp * n <= i128_max /\ balance (x_tok (w_ext w)) (bs_blnd (x_bs (w_ext w))) (bs_token (x_bs (w_ext w))) + n <= i128_max /\
  balance (x_tok (w_ext w)) (bs_token (x_bs (w_ext w))) bs_addr + lp <= i128_max.


(** In every history of consistently deployed contracts, in which the backstop is not replaced and later made current again, and depositors claim for
    themselves (C44, C48): what the depositors [us] of a pool have earned is at most what was allocated to them and not claimed; the backstop's BLND
    covers it, for all pools together; and whoever has signed receives all he has earned at any pools, provided that none of these has emissions
    running while all its shares are queued (C63), or has lost all its tokens. *)
Theorem C78_earned_is_covered : forall w0 l us, initial w0 -> Forall (fun o => own_claim o = true) l -> NoDup us ->
  let w := run w0 l in
  (forall p, sumz (fun u => earned w p u) us <= unclaimed w p) /\
  (never_back w0 l -> bs_init (x_bs (w_ext w)) = true -> em_blnd (x_em (w_ext w)) = bs_blnd (x_bs (w_ext w)) -> bs_token (x_bs (w_ext w)) <> bs_blnd (x_bs (w_ext w)) ->
   forall ps, NoDup ps -> sumz (fun p => sumz (fun u => earned w p u) us) ps <= balance (x_tok (w_ext w)) (bs_blnd (x_bs (w_ext w))) bs_addr).
Proof.
  intros w0 l us Hi Ho Hn w. assert (reachable w) as Hr by (by exists w0, l).
  assert (forall p, sumz (fun u => earned w p u) us <= unclaimed w p) as H1. { intros p. apply earned_covered; [done|by apply covered_run|done]. }
  split; [exact H1|]. intros Hnb Hb Hem Hne ps Hps. destruct (C73_backstop_holds_it w0 l [] ps Hi Hnb Ho ltac:(constructor) Hps Hb Hem Hne) as [_ H2]. fold w in H2.
  rewrite sumz_nil, Z.add_0_l in H2. transitivity (sumz (unclaimed w) ps); [|done]. apply sumz_le. intros p _. apply H1.
Qed.
Theorem C78_earned_can_be_claimed : forall w0 l sg u ps to lp, initial w0 -> never_back w0 l -> Forall (fun o => own_claim o = true) l ->
  let w := run w0 l in let n := sumz (fun p => earned w p u) ps in
  bs_init (x_bs (w_ext w)) = true -> em_blnd (x_em (w_ext w)) = bs_blnd (x_bs (w_ext w)) -> bs_token (x_bs (w_ext w)) <> bs_blnd (x_bs (w_ext w)) -> bs_token (x_bs (w_ext w)) <> bs_addr ->
  accounts sg -> u ∈ sg -> ps <> [] -> NoDup ps -> 0 <= lp -> claim_fits w u ps lp n ->
  (forall p, p ∈ ps -> ~ stuck w p /\ (pb_shares (pool_bal w p) <> 0 -> pb_tokens (pool_bal w p) <> 0)) ->
  exists w', exec w (OExt sg (BClaim u ps to lp)) = Ok (OutZ n, w').
Proof.
  intros w0 l sg u ps to lp Hi Hnb Ho w n Hb Hem Hne Hnc Hac Hsg Hps Hnd Hlp (Fp & F1 & F2 & F3) Hok. assert (reachable w) as Hr by (by exists w0, l).
  destruct (C78_earned_is_covered w0 l [u] Hi Ho ltac:(apply NoDup_singleton)) as [_ Hcov]. cbv zeta in Hcov. fold w in Hcov. specialize (Hcov Hnb Hb Hem Hne ps Hnd).
  assert (sumz (fun p => sumz (fun u => earned w p u) [u]) ps = n) as Hs by (apply sumz_ext; intros p _; rewrite sumz_cons, sumz_nil; lia). rewrite Hs in Hcov. clear Hs.
  pose proof (reachable_tok_nonneg w Hr) as Htn. destruct (reachable_ginv w Hr) as [Hbi He]. pose proof (binv_free _ _ Hbi) as Hf.
  assert (0 <= n) as Hn0 by (apply sumz_nonneg; intros; by apply earned_nonneg).
  destruct (claim_loop_total w sg u Hr ps 0 ∅ (w_ext w) Hnd) as (m & x & E).
  { intros p Hp. split; [|done]. apply not_stuck_updatable; [done|by apply Fp|by apply Hok]. } { apply bfields_refl. } { done. } { lia. }
  { fold n. pose proof (Htn (bs_blnd (x_bs (w_ext w))) (bs_token (x_bs (w_ext w)))). lia. }
  rewrite Z.add_0_l in E. fold n in E.
  destruct (claim_loop_map _ _ _ _ _ _ _ _ _ E Hf He) as ((M1 & M2 & M3 & M4 & M5) & Mp).
  assert (exists x', b_claim (ctx w sg) (w_ext w) u ps to lp = Ok (n, x')) as [x' Ec].
  { unfold b_claim. rewrite (auth_of _ _ _ Hsg). cbn [bind]. rewrite (proj2 (Z.eqb_neq (Z.of_nat (length ps)) 0)) by (destruct ps; [done|simpl; lia]). cbn [negb].
    rewrite E. cbn [bind]. destruct (Z.ltb_spec 0 n) as [Hn|Hn]; [|eauto]. rewrite M2, Hb, M3, M4, M5.
    destruct (PropsPool16.move_total (x_tok (w_ext w)) (bs_blnd (x_bs (w_ext w))) bs_addr (bs_token (x_bs (w_ext w))) n) as (t1 & T1 & _); [congruence|lia|apply Htn|done|]. rewrite T1. cbn [bind].
    apply tok_move_spec in T1 as (_ & _ & _ & T1 & _).
    assert (balance t1 (bs_token (x_bs (w_ext w))) bs_addr = balance (x_tok (w_ext w)) (bs_token (x_bs (w_ext w))) bs_addr) as Hb1.
    { rewrite T1. rewrite !bool_decide_eq_false_2 by (intros [? ?]; congruence). lia. }
    unfold mint. rewrite (proj2 (Z.leb_le 0 lp)) by done. rewrite Hb1. rewrite i128_ok_nonneg by (pose proof (Htn (bs_token (x_bs (w_ext w))) bs_addr); lia). cbn [bind].
    match goal with |- context [foldM _ ?y ps] => assert (forall p, get_pb y p = get_pb (w_ext w) p) as Hpy by (intros p; transitivity (get_pb x p); [done|]; apply get_pb_same, M1);
       assert (forall p v, get_ub y p v = get_ub (w_ext w) p v) as Huy by (intros p v; transitivity (get_ub x p v); [done|]; apply get_ub_same, M1); generalize dependent y end. intros y Hpy Huy.
    destruct (claim_deps_total n lp m to Hn Hlp F1 ps y Hnd) as [x2 ->]; [|cbn [bind]; eauto]. intros p Hp. rewrite Hpy, Huy. destruct (Fp p Hp) as (_ & G1 & G2 & G3).
    split; [|split].
    - rewrite Mp, decide_True by done. eexists. split; [done|]. rewrite decide_True by (by apply nodup_times). change (c_now (ctx w sg)) with (w_now w).
      rewrite <- bclaimable_fclaim by done. change (0 <= earned w p u <= n). split; [by apply earned_nonneg|]. subst n.
      transitivity (sumz (fun p => earned w p u) [p]); [rewrite sumz_cons, sumz_nil; lia|]. apply sumz_incl; [apply NoDup_singleton|done|by intros a ->%elem_of_list_singleton|].
      intros a _. by apply earned_nonneg.
    - pose proof (binv_pool _ _ p Hbi) as [B1 B2]. unfold dep_fits. split; [lia|]. split; [done|]. split; [by apply Hok|]. split; [done|]. split; [done|]. exact G3.
    - pose proof (user_queued_le w p to Hr) as (U1 & U2 & U3 & _). unfold user_bal, pool_bal in *. lia. }
  unfold exec. assert (forallb ok_signer sg = true) as -> by (by apply accounts_ok). assert (ty_xop (BClaim u ps to lp) = true) as ->.
  { simpl. apply in_i128_iff. pose proof (Htn (bs_token (x_bs (w_ext w))) bs_addr). unfold i128_min, i128_max in *. lia. }
  cbn [andb]. cbn [x_exec]. rewrite Ec. cbn. eauto.
Qed.

(** A pool named twice in one claim: the BLND earned there is claimed, but nothing is credited for it to anybody (finding). *)
Theorem C78_named_twice_is_lost : forall w sg u ps to lp n w' p,
  reachable w -> exec w (OExt sg (BClaim u ps to lp)) = Ok (OutZ n, w') -> (1 < times p ps)%nat ->
  earned w p u <= n /\ pool_bal w' p = pool_bal w p /\ (forall v, user_bal w' p v = user_bal w p v) /\
  (free_shares (w_ext w) p <> 0 -> earned w' p u = 0).
Proof.
  intros w sg u ps to lp n w' p Hr E Ht. pose proof (C76_claim_exact _ _ _ _ _ _ _ _ Hr E) as [Hsum Hz]. assert (p ∈ ps) as Hp by (apply times_in; lia).
  split.
  { rewrite Hsum. transitivity (sumz (fun p => earned w p u) [p]); [rewrite sumz_cons, sumz_nil; lia|]. apply sumz_incl; [apply NoDup_singleton|apply NoDup_remove_dups| |].
    - intros a ->%elem_of_list_singleton. by apply elem_of_remove_dups.
    - intros a _. by apply earned_nonneg. }
  destruct (C78_claim_credits _ _ _ _ _ _ _ _ Hr E) as (_ & H1 & H2 & _). cbv beta zeta in H1, H2.
  assert ((if n =? 0 then 0 else lp_part w u ps lp n p) = 0) as Hpart. { destruct (n =? 0); [done|]. unfold lp_part. by rewrite decide_False by lia. }
  assert (shares_for w p 0 = 0) as Hs0. { unfold shares_for. destruct (pb_shares (pool_bal w p) =? 0); [reflexivity|]. by rewrite Z.mul_0_l, Zdiv_0_l. }
  specialize (H1 p). rewrite Hpart, Hs0, !Z.add_0_r in H1. destruct H1 as (A1 & A2 & A3). split; [destruct (pool_bal w' p), (pool_bal w p); simpl in *; congruence|]. split.
  - intros v. specialize (H2 p v). rewrite Hpart, Hs0 in H2. destruct H2 as [B1 B2]. destruct (decide (v = to)); rewrite Z.add_0_r in B1; destruct (user_bal w' p v), (user_bal w p v); simpl in *; congruence.
  - intros Hfr. by apply Hz.
Qed.
