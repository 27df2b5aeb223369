(** * Pool transactions of reachable worlds *)
From Verif Require Import Base Types Token Emitter Factory Backstop PoolReserve PoolUser PoolHealth
  PoolAuction PoolSubmit PoolEmis PoolAdmin World Facts XMove Spec PoolFrame PoolCfg PoolAccrue PoolTrace PoolInv AuctionFacts
  PoolSim PoolReq PoolHF PoolOps PoolLiq PoolReach.

Lemma exec_opool w sg a po out w' :
  exec w (OPool sg a po) = Ok (out, w') ->
  ty_pop po = true /\ w_now w' = w_now w /\ w_seq w' = w_seq w /\
  exists px, p_exec (ctx w sg) a (mkPX (pool w a) (w_ext w)) po = Ok (out, px) /\
    pool w' a = px_p px /\ w_ext w' = px_x px /\ forall b, b <> a -> pool w' b = pool w b.
Proof.
  unfold exec. intros H. apply assert_ok in H as [G H]. apply andb_prop in G as [_ G].
  apply bind_ok in H as (p & E & H). apply bind_ok in H as ([o px] & Ex & H). injection H as <- <-.
  split; [done|]. split; [done|]. split; [done|]. destruct (w_pools w !! a) as [p0|] eqn:Ep; [|discriminate].
  injection E as ->. assert (pool w a = p) as Hp by (unfold pool; by rewrite Ep). exists px. rewrite Hp. split; [done|].
  unfold pool; simpl. rewrite lookup_insert. split; [done|]. split; [done|]. intros b Hb. by rewrite lookup_insert_ne.
Qed.

Lemma tx_good w sg a po out w' :
  reachable w -> exec w (OPool sg a po) = Ok (out, w') -> (forall x1 x2 x3 x4 x5 x6, po <> PInit x1 x2 x3 x4 x5 x6) ->
  ps_init (pool w a) = true /\ good (pool w a).
Proof.
  intros Hr H Hn. apply exec_opool in H as (_ & _ & _ & px & H & _). apply p_exec_cfg in H as [Hi _].
  cbn [px_p] in Hi. assert (ps_init (pool w a) = true) as Hi' by (destruct po; try done; by exfalso; eapply Hn).
  split; [done|]. by apply reachable_good.
Qed.

Lemma auth_in w sg u : need_auth (ctx w sg) u = Ok tt -> u ∈ sg.
Proof.
  intros H. apply need_auth_ok in H. simpl in H. unfold mem_addr in H. apply existsb_exists in H as (b & Hb & Hab).
  apply Z.eqb_eq in Hab as ->. by apply elem_of_list_In.
Qed.

(** a successful submit *)
Lemma submit_tx w sg a from spender to qs out w' :
  reachable w -> exec w (OPool sg a (PSubmit from spender to qs)) = Ok (out, w') ->
  let c := ctx w sg in let p := pool w a in let p' := pool w' a in
  good p /\ good p' /\ same_cfg p p' /\ spender ∈ sg /\ from ∈ sg /\ from <> a /\ spender <> a /\ to <> a /\
  forallb (fun q => in_u32 (rq_type q) && in_i128 (rq_amt q)) qs = true /\
  exists ls x1 ac chk t1 t2 pos,
    out = OutPos pos /\ pos = get_pos p' from /\
    areqs c a from (mkAS (touch p from) (w_ext w) no_actions false) qs ls (mkAS p' x1 ac chk) /\
    transfer_all c spender a (x_tok x1) (ac_spender ac) = Ok t1 /\
    transfer_all (as_contract c a) a to t1 (ac_pool ac) = Ok t2 /\
    w_ext w' = x1 <| x_tok := t2 |> /\
    (eff_count pos <= eff_count (get_pos p from) \/ eff_count pos <= pc_max_positions (ps_config p)) /\
    (chk = true -> po_liab pos <> ∅ ->
       hf_at_least (w_now w) p' x1 pos 10000100 /\
       (forall i a, ps_list p' !! i = Some a -> get_coll pos (Z.of_nat i) <> 0 \/ get_liab pos (Z.of_nat i) <> 0 ->
          fresh_price (w_now w) p' x1 a) /\
       (forall i a, ps_list p' !! i = Some a -> get_liab pos (Z.of_nat i) <> 0 -> 0 < rc_l_factor (cfg_of p' a))).
Proof.
  intros Hr H. cbv zeta. destruct (tx_good _ _ _ _ _ _ Hr H) as [Hi G]; [done|].
  apply exec_opool in H as (Hty & _ & _ & px & H & Hp & Hx & _).
  simpl in H. rewrite Hi in H. simpl in H. apply bind_ok in H as ([pos px1] & E & H). injection H as <- <-.
  apply submit_sim in E; [|exact G]. cbv zeta in E. cbn [px_p px_x] in E.
  destruct E as (A1 & A2 & N1 & N2 & N3 & ls & x1 & ac & chk & t1 & t2 & Hq & Ht1 & Ht2 & Hx' & Hpos & Hc & Hh).
  rewrite <- Hp in *. pose proof (areqs_trace _ _ _ _ _ _ _ Hq) as T. cbn [as_p] in T.
  pose proof (ptrace_good _ _ _ _ (touch_good _ _ G) T) as G'.
  split; [done|]. split; [done|].
  split. { pose proof (ptrace_cfg _ _ _ _ T) as Hcfg. exact Hcfg. }
  split; [by apply (auth_in w)|]. split. { destruct A2 as [->|A2]; by apply (auth_in w). }
  do 3 (split; [done|]). split; [done|].
  exists ls, x1, ac, chk, t1, t2, pos. split; [done|]. split; [done|]. split; [done|]. split; [done|]. split; [done|].
  split; [by rewrite Hx|]. split; [done|]. exact Hh.
Qed.

(** ** Requests of a submit *)
Lemma areqs_app c self from : forall qs1 qs2 s ls s',
  areqs c self from s (qs1 ++ qs2) ls s' ->
  exists s1 l1 l2, areqs c self from s qs1 l1 s1 /\ areqs c self from s1 qs2 l2 s' /\ ls = l1 ++ l2.
Proof.
  induction qs1 as [|q qs1 IH]; simpl; intros qs2 s ls s' H.
  - exists s, [], ls. split; [constructor|]. done.
  - inversion H as [|? ? ? l0 s0 l0' ? Ha Hal Hq Hqs]; subst.
    apply IH in Hqs as (s1 & l1 & l2 & H1 & H2 & ->). exists s1, (l0 ++ l1), l2.
    split; [by eapply aqs_cons|]. split; [done|]. by rewrite app_assoc.
Qed.
Lemma areqs_in c self from qs s ls s' q : areqs c self from s qs ls s' -> q ∈ qs ->
  exists qs1 qs2 s1 s2 l1 l l2, qs = qs1 ++ q :: qs2 /\ areqs c self from s qs1 l1 s1 /\ 0 <= rq_amt q /\
    allowed (pc_status (ps_config (as_p s1))) (rq_type q) /\
    areq c self from q s1 l s2 /\ areqs c self from s2 qs2 l2 s' /\ ls = l1 ++ l ++ l2.
Proof.
  intros H Hin. apply elem_of_list_split in Hin as (qs1 & qs2 & ->). apply areqs_app in H as (s1 & l1 & l2 & H1 & H2 & ->).
  inversion H2 as [|? ? ? l0 s0 l0' ? Ha Hal Hq Hqs]; subst.
  exists qs1, qs2, s1, s0, l1, l0, l0'. done.
Qed.
Lemma areqs_cfg c self from qs s ls s' : areqs c self from s qs ls s' -> same_cfg (as_p s) (as_p s').
Proof. intros H. apply areqs_trace in H. by eapply ptrace_cfg. Qed.
Lemma areqs_good c self from qs s ls s' : good (as_p s) -> areqs c self from s qs ls s' -> good (as_p s').
Proof. intros G H. apply areqs_trace in H. by eapply ptrace_good. Qed.

(** the health flag is set by every risk-increasing request and never cleared *)
Definition risky (t : Z) : Prop := t = 3 \/ t = 4 \/ t = 6 \/ t = 7 \/ t = 9.
Lemma areq_chk c self from q s ls s' : areq c self from q s ls s' ->
  (as_chk s = true -> as_chk s' = true) /\ (risky (rq_type q) -> as_chk s' = true).
Proof.
  intros H. destruct H; simpl; split; try done; try (intros [E|[E|[E|[E|E]]]]; first [lia | by rewrite E]);
    try (by intros ->).
Qed.
Lemma areqs_chk c self from s qs ls s' : areqs c self from s qs ls s' ->
  (as_chk s = true -> as_chk s' = true) /\ ((exists q, q ∈ qs /\ risky (rq_type q)) -> as_chk s' = true).
Proof.
  induction 1 as [s|s q qs l1 s1 l2 s2 _ _ Hq Hqs [IH1 IH2]].
  - split; [done|]. intros (q & Hq & _). by apply elem_of_nil in Hq.
  - apply areq_chk in Hq as [H1 H2]. split; [auto|]. intros (q' & Hin & Hr).
    apply elem_of_cons in Hin as [->|Hin]; [auto|]. apply IH2. eauto.
Qed.

Lemma sumz_cons {A} (f : A -> Z) x l : sumz f (x :: l) = f x + sumz f l. Proof. done. Qed.
Lemma sumz_nil {A} (f : A -> Z) : sumz f [] = 0. Proof. done. Qed.

(** contributions of a submit to the positions of others *)
Lemma rm_lbls_contrib u coll liab k' u' a :
  sumz (contrib k' u' a) (rm_lbls u coll liab) =
  if decide (u = u') then (match k' with KColl => - getz coll a | KLiab => - getz liab a | KSup => 0 end) else 0.
Proof.
  unfold rm_lbls. rewrite sumz_app, !contrib_lbls. destruct (decide (u = u')) as [->|Hn]; destruct k';
  repeat (first [rewrite decide_True by done | rewrite decide_False by (intros [? ?]; done)]); lia.
Qed.
Lemma add_lbls_contrib u coll liab k' u' a :
  sumz (contrib k' u' a) (add_lbls u coll liab) =
  if decide (u = u') then (match k' with KColl => getz coll a | KLiab => getz liab a | KSup => 0 end) else 0.
Proof.
  unfold add_lbls. rewrite sumz_app, !contrib_lbls. destruct (decide (u = u')) as [->|Hn]; destruct k';
  repeat (first [rewrite decide_True by done | rewrite decide_False by (intros [? ?]; done)]); lia.
Qed.
Lemma cred_contrib l k u a : sumz (contrib k u a) (cred_lbls l) = 0.
Proof. induction l as [|e l IH]; simpl; [done|]. rewrite IH. lia. Qed.

Lemma getz_pos_nonneg (m : gmap Addr Z) a : (forall k v, m !! k = Some v -> 0 < v) -> 0 <= getz m a.
Proof. intros H. unfold getz. destruct (m !! a) eqn:E; simpl; [apply H in E|]; lia. Qed.

Lemma areq_contrib c self from q s ls s' k u a :
  areq c self from q s ls s' -> u <> from -> u <> ps_backstop (as_p s) ->
  (k = KSup -> sumz (contrib k u a) ls = 0) /\ sumz (contrib k u a) ls <= 0 /\
  (sumz (contrib k u a) ls <> 0 -> rq_type q = 6 /\ rq_addr q = u).
Proof.
  intros H Hu Hb. destruct H; cbn [as_p] in Hb.
  - rewrite ?sumz_cons, ?sumz_nil; cbn [contrib]. rewrite decide_False by (intros (_ & ? & _); congruence). lia.
  - match goal with E : scale_auction _ _ _ = Ok _ |- _ => apply scale_pos in E as [[Hp1 Hp2] _]; [|apply as_u64_nonneg] end.
    pose proof (getz_pos_nonneg _ a Hp1). pose proof (getz_pos_nonneg _ a Hp2).
    rewrite sumz_app. rewrite ?sumz_cons, ?sumz_nil; cbn [contrib]. rewrite sumz_app, rm_lbls_contrib, add_lbls_contrib.
    rewrite (decide_False (P := from = u)) by congruence.
    destruct (decide (rq_addr q = u)); destruct k; (split; [intros; first [lia | discriminate]|]); split; try lia; done.
  - rewrite !sumz_app. rewrite ?sumz_cons, ?sumz_nil; cbn [contrib]. rewrite !sumz_app, !rm_lbls_contrib, add_lbls_contrib.
    rewrite !decide_False by congruence. lia.
  - rewrite sumz_app, cred_contrib. rewrite ?sumz_cons, ?sumz_nil; cbn [contrib]. lia.
  - rewrite ?sumz_cons, ?sumz_nil; cbn [contrib]. lia.
Qed.
Lemma areqs_contrib c self from s qs ls s' k u a :
  areqs c self from s qs ls s' -> u <> from -> u <> ps_backstop (as_p s) ->
  (k = KSup -> sumz (contrib k u a) ls = 0) /\ sumz (contrib k u a) ls <= 0 /\
  (sumz (contrib k u a) ls <> 0 -> exists q, q ∈ qs /\ rq_type q = 6 /\ rq_addr q = u).
Proof.
  intros H Hu. induction H as [s|s q qs l1 s1 l2 s2 Hn Hal Hq Hqs IH]; intros Hb.
  - simpl. split; [done|]. split; [lia|]. done.
  - pose proof (areq_contrib _ _ _ _ _ _ _ k u a Hq Hu Hb) as (A1 & A2 & A3).
    pose proof (areq_trace _ _ _ _ _ _ _ Hq) as T. pose proof (ptrace_cfg _ _ _ _ T) as (_ & _ & Hbs & _).
    rewrite Hbs in IH. destruct (IH Hb) as (B1 & B2 & B3). rewrite sumz_app.
    split; [intros; rewrite A1, B1 by done; lia|]. split; [lia|]. intros Hne.
    destruct (Z.eq_dec (sumz (contrib k u a) l1) 0) as [E0|E0].
    + destruct B3 as (q' & ? & ?); [lia|]. exists q'. split; [by right|done].
    + exists q. split; [left|]. by apply A3.
Qed.

(** contributions of bad_debt *)
Lemma bd_contrib user bs l (m : gmap Z Z) k u (i : nat) a :
  NoDup l -> l !! i = Some a -> user <> bs -> (forall j v, m !! j = Some v -> 0 <= j) ->
  sumz (contrib k u a) (bd_lbls user bs l (entries m)) =
  match k with KLiab => (if decide (u = bs) then getz m (Z.of_nat i) else 0) - (if decide (u = user) then getz m (Z.of_nat i) else 0) | _ => 0 end.
Proof.
  intros Hl Hi Hne Hm.
  transitivity (sumz (fun e : Addr * Z => if decide (e.1 = Z.of_nat i) then
     (match k with KLiab => (if decide (u = bs) then e.2 else 0) - (if decide (u = user) then e.2 else 0) | _ => 0 end) else 0) (entries m)).
  - assert (forall e, e ∈ entries m -> 0 <= e.1) as Hpos by (intros [j v] Hin; apply elem_of_entries in Hin; by eapply Hm).
    revert Hpos. generalize (entries m). induction l0 as [|[j v] es IH]; [done|]; intros Hpos.
    unfold bd_lbls in *. simpl. rewrite sumz_app, IH by (intros; apply Hpos; by right).
    assert (0 <= j) as Hj by (apply (Hpos (j, v)); left). f_equal.
    destruct (l !! Z.to_nat j) as [b|] eqn:Eb; simpl.
    + destruct (decide (j = Z.of_nat i)) as [->|Hji].
      * rewrite Nat2Z.id in Eb. assert (b = a) by congruence. subst b. destruct k.
        -- rewrite Z.add_0_l. destruct (decide (u = bs)) as [->|H1].
           ++ rewrite decide_True by done. rewrite !decide_False by (intuition congruence). lia.
           ++ rewrite decide_False by (intuition congruence). destruct (decide (u = user)) as [->|H2].
              ** rewrite decide_True by done. lia.
              ** rewrite decide_False by (intuition congruence). lia.
        -- rewrite !decide_False by (intros (? & _); done). lia.
        -- rewrite !decide_False by (intros (? & _); done). lia.
      * assert (b <> a) as Hba.
        { intros ->. apply Hji. assert (Z.to_nat j = i) by (exact (NoDup_lookup l _ _ _ Hl Eb Hi)). lia. }
        rewrite !decide_False by (intros (_ & _ & ?); done). lia.
    + rewrite decide_False; [done|]. intros ->. rewrite Nat2Z.id in Eb. congruence.
  - rewrite (sum_entries m (Z.of_nat i) (fun v => match k with KLiab => (if decide (u = bs) then v else 0) - (if decide (u = user) then v else 0) | _ => 0 end)).
    unfold getz. destruct (m !! Z.of_nat i); simpl; [done|]. destruct k; try done. destruct (decide _), (decide _); lia.
Qed.
