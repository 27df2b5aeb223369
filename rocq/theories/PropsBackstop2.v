(** * Properties of the backstop: C38 - C42, C46 *)
From Verif Require Import Base Types Token Emitter Factory Backstop PoolReserve PoolUser PoolHealth
  PoolAuction PoolSubmit PoolEmis PoolAdmin World Facts XMove Spec FrameFacts PoolFrame PoolCfg BackMoves BackInv BackEmis PropsBackstop.

(** ** What a transaction does to one user's balance *)
Definition touches (o : Op) (p u : Addr) : Prop :=
  match o with
  | OExt _ (BQueue v q _) | OExt _ (BDequeue v q _) | OExt _ (BWithdraw v q _) => q = p /\ v = u
  | _ => False
  end.
Inductive ub_change (w : World) (o : Op) (p u : Addr) (b b' : UserBal) : Prop :=
| uc_same : ~ touches o p u -> b' = b -> ub_change w o p u b b'
| uc_dep sg n m : o = OExt sg (BDeposit u p n) -> u ∈ sg -> 0 <= m -> b' = mkUserBal (ub_shares b + m) (ub_q4w b) -> ub_change w o p u b b'
| uc_que sg n : o = OExt sg (BQueue u p n) -> u ∈ sg -> 0 <= n <= ub_shares b -> Z.of_nat (length (ub_q4w b)) < 21 ->
    b' = mkUserBal (ub_shares b - n) (ub_q4w b ++ [mkQ4W n (w_now w + Q4W_LOCK_TIME)]) -> ub_change w o p u b b'
| uc_deq sg n q' : o = OExt sg (BDequeue u p n) -> u ∈ sg -> 0 <= n -> taken_oldest n (ub_q4w b) q' ->
    b' = mkUserBal (ub_shares b + n) q' -> ub_change w o p u b b'
| uc_wd sg n : o = OExt sg (BWithdraw u p n) -> u ∈ sg -> 0 <= n -> ub_dequeue (ctx w sg) b n true = Ok b' -> ub_change w o p u b b'
| uc_cred sg f ps lp m : o = OExt sg (BClaim f ps u lp) -> f ∈ sg -> 0 <= m -> b' = mkUserBal (ub_shares b + m) (ub_q4w b) -> ub_change w o p u b b'.

Lemma bmoves_inv1 c a x y : bmoves c [a] x y -> bmove c a x y.
Proof. inversion 1 as [|? ? ? z ? H1 H2]; subst. by inversion H2; subst. Qed.
Lemma same_get_ub x x' p u : same_bal x x' -> get_ub x' p u = get_ub x p u.
Proof. intros [H _]. by apply get_ub_same. Qed.
Lemma pool_acts_ub c a0 l x y p u : bmoves c l x y -> Forall (fun b => b = ANone \/ exists n, b = ADrw a0 n \/ b = ADon a0 n) l ->
  get_ub y p u = get_ub x p u.
Proof.
  induction 1 as [x|a l x y z Hm _ IH]; intros Hf; [done|]. inversion Hf as [|? ? Ha Hf']; subst.
  rewrite IH by done. destruct Hm as [Hb _ _ _ _]. destruct Ha as [->|(n & [->| ->])]; simpl in Hb.
  - by apply same_get_ub.
  - destruct Hb as (pb & _ & _ & H1 & _). by apply get_ub_same.
  - destruct Hb as (pb & _ & _ & H1 & _). by apply get_ub_same.
Qed.
Lemma cred_acts_ub c t (ps : list Addr) l x y p u : bmoves c l x y -> binv (c_now c) x ->
  Forall (fun a => exists p d sh, a = ACred t p d sh /\ p ∈ ps) l ->
  exists m, 0 <= m /\ get_ub y p u = mkUserBal (ub_shares (get_ub x p u) + m) (ub_q4w (get_ub x p u)) /\ (u <> t -> m = 0).
Proof.
  induction 1 as [x|a l x y z Hm _ IH]; intros Hb Hf.
  { exists 0. split; [lia|]. rewrite Z.add_0_r. split; [by destruct (get_ub x p u)|done]. }
  inversion Hf as [|? ? Ha Hf']; subst. pose proof (bmove_binv _ _ _ _ Hm Hb) as Hb'.
  destruct (IH Hb' Hf') as (m & Hm0 & Hz & Hmt). destruct Hm as [Hbal _ _ _ _]. destruct Ha as (q & d & sh & -> & _). simpl in Hbal.
  destruct Hbal as (pb & ub & Hd & Hs & _ & Ha & Hu & _). apply (to_shares_nonneg _ _ _ _ _ Hb Hd) in Hs as [Hs _]. apply ub_add_ok in Ha.
  rewrite (get_ub_upd _ _ _ _ _ _ _ Hu) in Hz. case_bool_decide as Hq; [destruct Hq as [-> ->]|].
  - exists (sh + m). split; [lia|]. split; [|done]. rewrite Hz, Ha. simpl. f_equal. lia.
  - exists m. auto.
Qed.

Lemma exec_user w o out w' p u : exec w o = Ok (out, w') -> reachable w ->
  ub_change w o p u (user_bal w p u) (user_bal w' p u).
Proof.
  intros H Hr. destruct (exec_acts _ _ _ _ H Hr) as (l & Hl & Ha). pose proof (reachable_binv _ Hr) as Hb.
  unfold user_bal. clear H out || clear H.
  assert (l = [ANone] -> ~ touches o p u -> ub_change w o p u (get_ub (w_ext w) p u) (get_ub (w_ext w') p u)) as H0.
  { intros -> Ht. apply bmoves_inv1 in Hl as [Hl _ _ _ _]. apply uc_same; [done|]. by apply same_get_ub. }
  destruct o as [sg o|sg a o|sg ad sa orc ra mp|b|dt ds|orc|n|b t v|b r|]; simpl in Ha; auto.
  2:{ apply uc_same; [naive_solver|]. by eapply pool_acts_ub. }
  destruct o; simpl in Ha; auto.
  - subst. apply bmoves_inv1 in Hl as [Hl _ _ _ _]. apply uc_same; [naive_solver|]. by apply same_get_ub.
  - destruct Ha as (Hs & _ & m & _ & ->). apply bmoves_inv1 in Hl as [Hl _ _ _ _]. destruct Hl as (pb & ub & Hd & Hm & _ & _ & Hu & Hup & _).
    rewrite (get_ub_upd _ _ _ _ _ _ _ Hup). case_bool_decide as Hq; [destruct Hq as [-> ->]|by apply uc_same; [naive_solver|]].
    apply (to_shares_nonneg _ _ _ _ _ Hb Hd) in Hm as [Hm _]. apply ub_add_ok in Hu. eapply uc_dep; eauto.
  - destruct Ha as (Hs & ->). apply bmoves_inv1 in Hl as [Hl _ _ _ _]. destruct Hl as (pb & ub & Hd & Hu & _ & Hup & _).
    rewrite (get_ub_upd _ _ _ _ _ _ _ Hup). case_bool_decide as Hq; [destruct Hq as [-> ->]|by apply uc_same; [naive_solver|]].
    apply ub_queue_ok in Hu as (Hu & Hle & Hlen). eapply uc_que; eauto.
  - destruct Ha as (Hs & ->). apply bmoves_inv1 in Hl as [Hl _ _ _ _]. destruct Hl as (pb & ub1 & ub & Hd & Hu & Ha & _ & Hup & _).
    rewrite (get_ub_upd _ _ _ _ _ _ _ Hup). case_bool_decide as Hq; [destruct Hq as [-> ->]|by apply uc_same; [naive_solver|]].
    eapply ub_dequeue_spec in Hu as (Hu & Ht & _); [|done|apply (bi_get _ _ p u Hb)]. apply ub_add_ok in Ha. rewrite Hu in Ha. eapply uc_deq; eauto.
  - destruct Ha as (Hs & r & _ & ->). apply bmoves_inv1 in Hl as [Hl _ _ _ _]. destruct Hl as (pb & ub & Hd & Hu & _ & _ & _ & Hup & _).
    rewrite (get_ub_upd _ _ _ _ _ _ _ Hup). case_bool_decide as Hq; [destruct Hq as [-> ->]|by apply uc_same; [naive_solver|]].
    eapply uc_wd; eauto.
  - destruct Ha as (_ & ->). apply bmoves_inv1 in Hl as [Hl _ _ _ _]. apply uc_same; [naive_solver|]. destruct Hl as (pb & _ & _ & Hup & _). by apply get_ub_same.
  - destruct Ha as (_ & _ & ->). apply bmoves_inv1 in Hl as [Hl _ _ _ _]. apply uc_same; [naive_solver|]. destruct Hl as (pb & _ & _ & Hup & _). by apply get_ub_same.
  - destruct Ha as (Hs & [->|(l' & -> & Hf & _)]); [auto|].
    inversion Hl as [|? ? ? y ? Hm1 Hl1]; subst. inversion Hl1 as [|? ? ? z ? Hm2 Hl2]; subst.
    pose proof (bmove_binv _ _ _ _ Hm2 (bmove_binv _ _ _ _ Hm1 Hb)) as Hbz.
    destruct (cred_acts_ub _ _ _ _ _ _ p u Hl2 Hbz Hf) as (m & Hm & Hz & Ht).
    destruct Hm1 as [Hm1 _ _ _ _]. destruct Hm2 as [[Hm2 _] _ _ _ _]. rewrite (same_get_ub _ _ p u Hm2), (same_get_ub _ _ p u Hm1) in Hz.
    destruct (decide (u = to)) as [->|Hne].
    + eapply uc_cred; eauto.
    + apply uc_same; [naive_solver|]. rewrite Hz, Ht by done. rewrite Z.add_0_r. by destruct (get_ub (w_ext w) p u).
Qed.

(** ** C38: the 21-day lock *)

(** shares user [u] withdraws from pool [p] in a transaction *)
Definition withdrawn (p u : Addr) (w : World) (o : Op) (w' : World) : Z :=
  match o with
  | OExt _ (BWithdraw u' p' n) => if bool_decide (u' = u /\ p' = p) then match exec w o with Ok _ => n | Err _ => 0 end else 0
  | _ => 0
  end.
(** shares user [u] queues for withdrawal from pool [p] in a transaction at time [t] or earlier *)
Definition queued_by (p u : Addr) (t : Z) (w : World) (o : Op) (w' : World) : Z :=
  match o with
  | OExt _ (BQueue u' p' n) =>
      if bool_decide (u' = u /\ p' = p /\ w_now w <= t) then match exec w o with Ok _ => n | Err _ => 0 end else 0
  | _ => 0
  end.

Definition expired (T : Z) (q : list Q4W) : Z := sumz (fun e => if q_exp e <=? T then q_amount e else 0) q.

Lemma dequeue_expired now n q lft q' T :
  dequeue_loop now true n q = Ok (lft, q') -> lft <= 0 -> now <= T -> 0 <= n -> Forall (fun e => 0 <= q_amount e) q ->
  expired T q' = expired T q - n.
Proof.
  revert n. induction q as [|e q IH]; simpl; intros n H Hl HT Hn Hf; [injection H as <- <-; unfold expired; simpl; lia|].
  inversion Hf as [|? ? He Hf']; subst.
  destruct (q_exp e <=? now) eqn:Ee; [|done]. assert ((q_exp e <=? T) = true) as Et by lia.
  destruct (n <? q_amount e) eqn:En.
  { mon H. apply i128_ok in E as [-> _]. unfold expired. simpl. rewrite Et. lia. }
  destruct (q_amount e =? n) eqn:Eq.
  { mon H. unfold expired. simpl. rewrite Et. lia. }
  mon1 H. apply i128_ok in E as [-> _]. apply IH in H; [|done|done|lia|done]. rewrite H. unfold expired. simpl. rewrite Et. lia.
Qed.
Lemma taken_expired n q q' T : taken_oldest n q q' -> Forall (fun e => 0 <= q_amount e) q -> expired T q' <= expired T q.
Proof.
  intros (gone & rest & -> & Hor) Hf. apply Forall_app in Hf as [Hf1 Hf2]. unfold expired. rewrite sumz_app.
  assert (0 <= sumz (fun e => if q_exp e <=? T then q_amount e else 0) gone).
  { apply sumz_nonneg. intros e He. rewrite Forall_forall in Hf1. specialize (Hf1 e He). destruct (_ <=? _); lia. }
  destruct Hor as [[-> _]|(a & e & r2 & -> & -> & Hle)]; [lia|]. simpl. destruct (e <=? T); lia.
Qed.
Lemma bi_amounts now x p u : binv now x -> Forall (fun e => 0 <= q_amount e) (ub_q4w (get_ub x p u)).
Proof. intros H. destruct (bi_get _ _ p u H) as (_ & Hf & _). eapply Forall_impl; [exact Hf|]. simpl. tauto. Qed.
Lemma expired_nonneg T q : Forall (fun e => 0 <= q_amount e) q -> 0 <= expired T q.
Proof. intros H. apply sumz_nonneg. intros e He. rewrite Forall_forall in H. specialize (H e He). destruct (_ <=? _); lia. Qed.

Lemma lock_inv w0 l p u T : initial w0 -> w_now (run w0 l) <= T ->
  sumh (withdrawn p u) w0 l + expired T (ub_q4w (user_bal (run w0 l) p u)) <= sumh (queued_by p u (T - days 21)) w0 l.
Proof.
  intros H0. revert T. induction l as [|o l IH] using rev_ind; intros T HT.
  { simpl. destruct H0 as (now & seq & t & orc & lp & -> & _). unfold user_bal, get_ub. simpl. rewrite lookup_empty. done. }
  rewrite !sumh_app. simpl. rewrite run_snoc in *. set (w := run w0 l) in *.
  assert (reachable w) as Hr by (by exists w0, l).
  assert (step w o = w \/ exists out, exec w o = Ok (out, step w o)) as Hstep.
  { unfold step. destruct (exec w o) as [[out w']|]; eauto. }
  assert (w_now w <= w_now (step w o)) as Hnow.
  { destruct Hstep as [->|(out & E)]; [lia|]. by eapply exec_now. }
  specialize (IH T ltac:(lia)). rewrite !Z.add_0_r.
  destruct (exec w o) as [[out w']|e] eqn:E.
  2:{ assert (step w o = w) as -> by (unfold step; by rewrite E).
      assert (withdrawn p u w o w = 0) as ->.
      { unfold withdrawn. destruct o; try done. destruct o; try done. rewrite E. by case_bool_decide. }
      assert (queued_by p u (T - days 21) w o w = 0) as ->.
      { unfold queued_by. destruct o; try done. destruct o; try done. rewrite E. by case_bool_decide. }
      lia. }
  assert (step w o = w') as Hw' by (unfold step; by rewrite E). rewrite Hw' in *.
  pose proof (reachable_binv _ Hr) as Hb. pose proof (bi_amounts _ _ p u Hb) as Ham.
  assert (0 <= queued_by p u (T - days 21) w o w') as Hq0.
  { unfold queued_by. destruct o; try done. destruct o; try done. rewrite E. case_bool_decide; [|done].
    destruct (exec_acts _ _ _ _ E Hr) as (la & Hl & _ & ->). apply bmoves_inv1 in Hl as [Hl _ _ _ _]. by destruct Hl as (? & ? & ? & _). }
  assert (~ touches o p u -> withdrawn p u w o w' = 0 /\ queued_by p u (T - days 21) w o w' >= 0) as Hnt.
  { intros Hnt. split; [|lia]. unfold withdrawn. destruct o; try done. destruct o; try done. simpl in Hnt. rewrite bool_decide_false by tauto. done. }
  destruct (exec_user _ _ _ _ p u E Hr) as [Hs Hbb|sg n m -> Hs Hm Hbb|sg n -> Hs Hn Hlen Hbb|sg n q' -> Hs Hn Ht Hbb|sg n -> Hs Hn Hd|sg f ps lp m -> Hs Hm Hbb].
  - rewrite Hbb. destruct (Hnt Hs). lia.
  - rewrite Hbb. simpl. lia.
  - assert (queued_by p u (T - days 21) w (OExt sg (BQueue u p n)) w' = if w_now w + days 21 <=? T then n else 0) as ->.
    { unfold queued_by. rewrite E. case_bool_decide as Hbd; destruct (w_now w + days 21 <=? T) eqn:El; try done; [lia|].
      exfalso. apply Hbd. split; [done|]. split; [done|]. lia. }
    rewrite Hbb. simpl withdrawn. simpl ub_q4w. unfold expired, Q4W_LOCK_TIME in *. fold (days 21). rewrite sumz_app. simpl sumz. lia.
  - rewrite Hbb. simpl. pose proof (taken_expired _ _ _ T Ht Ham). unfold user_bal in *. lia.
  - assert (withdrawn p u w (OExt sg (BWithdraw u p n)) w' = n) as ->.
    { unfold withdrawn. rewrite bool_decide_true by done. by rewrite E. }
    change (queued_by p u (T - days 21) w (OExt sg (BWithdraw u p n)) w') with 0.
    unfold ub_dequeue in Hd. mon Hd. simpl in *. unfold user_bal in *. rewrite <- Hd. simpl.
    rewrite (dequeue_expired _ _ _ _ _ T E0); [lia|lia| |done|done]. lia.
  - rewrite Hbb. simpl. lia.
Qed.

(** Over any history, what a user has withdrawn by time [t] is at most what the user
    had queued by [t] minus 21 days. *)
Theorem C38_21_day_lock w0 l p u :
  initial w0 ->
  sumh (withdrawn p u) w0 l <= sumh (queued_by p u (w_now (run w0 l) - days 21)) w0 l.
Proof.
  intros H0. pose proof (lock_inv w0 l p u _ H0 (Z.le_refl _)).
  assert (reachable (run w0 l)) as Hr by (by exists w0, l).
  pose proof (expired_nonneg (w_now (run w0 l)) _ (bi_amounts _ _ p u (reachable_binv _ Hr))). unfold user_bal in *. lia.
Qed.
(** Queuing appends an entry that expires in exactly 21 days; a withdrawal takes only
    entries that have expired. *)
Theorem C38_entries_expire_after_21_days w sg u p n out w' :
  reachable w -> exec w (OExt sg (BQueue u p n)) = Ok (out, w') ->
  out = OutQ4W (mkQ4W n (w_now w + days 21)) /\
  ub_q4w (user_bal w' p u) = ub_q4w (user_bal w p u) ++ [mkQ4W n (w_now w + days 21)].
Proof.
  intros Hr H. split.
  - unfold exec in H. mon H. simpl in E. unfold b_queue in E. mon E.
    mon E0.     match goal with E : ub_queue _ _ _ = Ok _ |- _ => apply ub_queue_ok in E as (-> & _) end.
    match goal with E : unwrap (last _) = Ok _ |- _ => simpl in E; rewrite last_snoc in E; simpl in E; injection E as <- end. done.
  - destruct (exec_user _ _ _ _ p u H Hr) as [Hs Hbb|? ? ? Ho|? ? Ho _ _ _ Hbb|? ? ? Ho|? ? Ho|? ? ? ? ? Ho]; try done.
    + simpl in Hs. tauto.
    + injection Ho as <- <-. by rewrite Hbb.
Qed.
Theorem C38_withdraw_takes_only_expired w sg u p n out w' :
  reachable w -> exec w (OExt sg (BWithdraw u p n)) = Ok (out, w') ->
  n <= sumz (fun e => if q_exp e <=? w_now w then q_amount e else 0) (ub_q4w (user_bal w p u)) /\
  taken_oldest n (ub_q4w (user_bal w p u)) (ub_q4w (user_bal w' p u)).
Proof.
  intros Hr H. pose proof (reachable_binv _ Hr) as Hb. pose proof (bi_amounts _ _ p u Hb) as Ham.
  destruct (exec_user _ _ _ _ p u H Hr) as [Hs Hbb|? ? ? Ho|? ? Ho|? ? ? Ho|? ? Ho _ Hn Hd|? ? ? ? ? Ho]; try done.
  - simpl in Hs. tauto.
  - injection Ho as <- <-. split.
    + unfold ub_dequeue in Hd. mon Hd. simpl in *. unfold user_bal in *.
      pose proof (dequeue_expired _ _ _ _ _ (w_now w) E ltac:(lia) ltac:(lia) Hn Ham) as He.
      assert (0 <= expired (w_now w) l); [|unfold expired in *; lia].
      apply expired_nonneg. eapply dequeue_loop_spec in E as [Ht _]; [|done|apply (bi_get _ _ p u Hb)|lia].
      destruct (bi_get _ _ p u Hb) as (_ & B & _ & S). destruct (taken_oldest_facts _ _ _ _ Ht B S) as (_ & B' & _).
      eapply Forall_impl; [exact B'|]. simpl. tauto.
    + eapply ub_dequeue_spec in Hd as (_ & Ht & _); [done|done|apply (bi_get _ _ p u Hb)].
Qed.

(** ** C39: share price rounding *)

(** Depositing [n] tokens mints [m] shares with [m / n <= shares / tokens], and the
    token value of a share does not drop. *)
Theorem C39_deposit_rounds_down w sg u p n m w' :
  reachable w -> exec w (OExt sg (BDeposit u p n)) = Ok (OutZ m, w') ->
  let b := pool_bal w p in let b' := pool_bal w' p in
  0 < m /\ pb_tokens b' = pb_tokens b + n /\ pb_shares b' = pb_shares b + m /\
  (0 < pb_shares b -> m * pb_tokens b <= n * pb_shares b) /\ (pb_shares b = 0 -> m = n) /\
  (0 < pb_shares b -> pb_tokens b' * pb_shares b >= pb_tokens b * pb_shares b').
Proof.
  intros Hr H b b'. destruct (exec_acts _ _ _ _ H Hr) as (l & Hl & _ & _ & m' & Ho & ->). injection Ho as <-.
  apply bmoves_inv1 in Hl as [Hl _ _ _ _]. destruct Hl as (pb & ub & Hn & Hm & Hz & Hp & _ & _ & Hup).
  pose proof (reachable_binv _ Hr) as Hb. destruct (binv_pool _ _ p Hb) as [B1 B2].
  apply (to_shares_nonneg _ _ _ _ _ Hb Hn) in Hm as [Hm Hor]. apply pb_deposit_ok in Hp.
  assert (b' = mkPoolBal (pb_shares b + m) (pb_tokens b + n) (pb_q4w b)) as ->.
  { unfold b', pool_bal. rewrite (get_pb_upd _ _ _ _ _ Hup), Z.eqb_refl. exact Hp. }
  simpl. fold (pool_bal w p) in *. fold b in Hor, B1, B2. split; [lia|]. split; [done|]. split; [done|].
  destruct Hor as [[E ->]|(E1 & E2 & ->)].
  - split; [lia|]. split; [done|]. lia.
  - pose proof (fdiv_spec (n * pb_shares b) (pb_tokens b) E2). split; [lia|]. split; [lia|]. nia.
Qed.
(** Withdrawing [n] shares pays [r] tokens with [r / n <= tokens / shares], and the
    token value of the remaining shares does not drop. *)
Theorem C39_withdraw_rounds_down w sg u p n r w' :
  reachable w -> exec w (OExt sg (BWithdraw u p n)) = Ok (OutZ r, w') ->
  let b := pool_bal w p in let b' := pool_bal w' p in
  0 < r /\ 0 < pb_shares b /\ pb_tokens b' = pb_tokens b - r /\ pb_shares b' = pb_shares b - n /\
  r * pb_shares b <= n * pb_tokens b /\
  pb_tokens b' * pb_shares b >= pb_tokens b * pb_shares b'.
Proof.
  intros Hr H b b'. destruct (exec_acts _ _ _ _ H Hr) as (l & Hl & _ & m' & Ho & ->). injection Ho as <-.
  apply bmoves_inv1 in Hl as [Hl _ _ _ _]. destruct Hl as (pb & ub & Hn & _ & Hm & Hz & Hp & _ & Hup).
  pose proof (reachable_binv _ Hr) as Hb. destruct (binv_pool _ _ p Hb) as [B1 B2].
  apply (to_tokens_nonneg _ _ _ _ _ Hb Hn) in Hm as [Hm Hor]. apply pb_withdraw_ok in Hp as (Hp & P1 & P2 & P3).
  assert (b' = mkPoolBal (pb_shares b - n) (pb_tokens b - r) (pb_q4w b - n)) as ->.
  { unfold b', pool_bal. rewrite (get_pb_upd _ _ _ _ _ Hup), Z.eqb_refl. exact Hp. }
  simpl. fold (pool_bal w p) in *. fold b in Hor, B1, B2, P1, P2, P3.
  destruct Hor as [[E ->]|(E1 & ->)]; [lia|].
  pose proof (fdiv_spec (n * pb_tokens b) (pb_shares b) E1). split; [lia|]. split; [done|]. split; [done|]. split; [done|].
  split; [lia|]. nia.
Qed.
(** A donation (a call made by a pool, with its authorization and the donor's, in any
    state) raises the token value of a share. *)
Theorem C39_donate c x f p n x' :
  b_donate c x f p n = Ok x' ->
  c_auth c f = true /\ c_auth c p = true /\ 0 <= n /\
  get_pb x' p = mkPoolBal (pb_shares (get_pb x p)) (pb_tokens (get_pb x p) + n) (pb_q4w (get_pb x p)) /\
  (forall q, q <> p -> get_pb x' q = get_pb x q).
Proof.
  unfold b_donate. intros H. mon H. apply need_auth_ok in E, E0. apply pb_deposit_ok in E4 as ->. unfold b_nonneg in *. mon E1.
  split; [done|]. split; [done|]. split; [lia|]. unfold get_pb. simpl. split; [rewrite lookup_insert; simpl; f_equal; lia|].
  intros q Hq. by rewrite lookup_insert_ne.
Qed.
(** Deposit followed by withdraw never profits: whoever deposits [n] tokens for [m]
    shares into a pool with outstanding shares (or with no tokens) and later withdraws
    at most [m] shares at an unchanged pool balance gets at most [n] tokens. *)
Theorem C39_deposit_then_withdraw w1 sg u p n m w2 w3 sg' u' k r w4 :
  reachable w1 -> 0 < pb_shares (pool_bal w1 p) \/ pb_tokens (pool_bal w1 p) = 0 ->
  exec w1 (OExt sg (BDeposit u p n)) = Ok (OutZ m, w2) ->
  reachable w3 -> pb_shares (pool_bal w3 p) = pb_shares (pool_bal w2 p) -> pb_tokens (pool_bal w3 p) = pb_tokens (pool_bal w2 p) ->
  k <= m -> exec w3 (OExt sg' (BWithdraw u' p k)) = Ok (OutZ r, w4) -> r <= n.
Proof.
  intros R1 Hor H1 R3 S1 S2 Hk H2.
  pose proof (C39_deposit_rounds_down _ _ _ _ _ _ _ R1 H1) as (D1 & D2 & D3 & D4 & D5 & D6).
  pose proof (C39_withdraw_rounds_down _ _ _ _ _ _ _ R3 H2) as (W1 & W2 & W3 & W4 & W5 & _).
  destruct (binv_pool _ _ p (reachable_binv _ R1)) as [B1 B2].
  destruct (binv_pool _ _ p (reachable_binv _ R3)) as [_ B3]. fold (pool_bal w3 p) in B3. fold (pool_bal w1 p) in B1, B2.
  set (b := pool_bal w1 p) in *. rewrite S1, S2, D2, D3 in *.
  assert (m * pb_tokens b <= n * pb_shares b) as Hp.
  { destruct (decide (pb_shares b = 0)) as [E|E]; [|apply D4; lia]. destruct Hor as [?|E0]; [lia|]. rewrite E0, E. lia. }
  assert (r * (pb_shares b + m) <= n * (pb_shares b + m)); [|nia].
  etransitivity; [exact W5|]. assert (k * (pb_tokens b + n) <= m * (pb_tokens b + n)) by (apply Z.mul_le_mono_nonneg_r; lia). lia.
Qed.

(** ** C40: the withdrawal queue *)
Theorem C40_queue_bounded_and_ordered w p u :
  reachable w ->
  let q := ub_q4w (user_bal w p u) in
  (length q <= 21)%nat /\ Forall (fun e => 0 <= q_amount e) q /\
  (forall i j a b, q !! i = Some a -> q !! j = Some b -> (i <= j)%nat -> q_exp a <= q_exp b).
Proof.
  intros Hr q. destruct (bi_get _ _ p u (reachable_binv _ Hr)) as (_ & B & C & D). split; [unfold q, user_bal; lia|].
  split; [eapply Forall_impl; [exact B|]; simpl; tauto|].
  intros i j a b Ha Hb Hij. 
  assert (StronglySorted (fun a b => q_exp a <= q_exp b) q) as Hs by (apply Sorted_StronglySorted; [intros ? ? ?; lia|exact D]).
  clear -Hs Ha Hb Hij. revert i j Ha Hb Hij. induction Hs as [|e q Hs IH He]; intros i j Ha Hb Hij; [done|].
  destruct i as [|i], j as [|j]; simpl in *; simplify_eq; [lia| |lia|].
  - rewrite Forall_forall in He. apply He. by eapply elem_of_list_lookup_2.
  - eapply IH; eauto. lia.
Qed.
(** Dequeuing [n] shares removes exactly [n] queued shares, oldest first, and makes
    them free again. *)
Theorem C40_dequeue_oldest_first w sg u p n out w' :
  reachable w -> exec w (OExt sg (BDequeue u p n)) = Ok (out, w') ->
  taken_oldest n (ub_q4w (user_bal w p u)) (ub_q4w (user_bal w' p u)) /\
  queued_of w' p u = queued_of w p u - n /\
  ub_shares (user_bal w' p u) = ub_shares (user_bal w p u) + n.
Proof.
  intros Hr H. destruct (exec_user _ _ _ _ p u H Hr) as [Hs Hbb|? ? ? Ho|? ? Ho|? ? ? Ho _ Hn Ht Hbb|? ? Ho|? ? ? ? ? Ho]; try done.
  - simpl in Hs. tauto.
  - injection Ho as <- <-. unfold queued_of. rewrite Hbb. simpl. split; [done|]. split; [|done].
    destruct (bi_get _ _ p u (reachable_binv _ Hr)) as (_ & B & _ & S). by apply (taken_oldest_facts _ _ _ _ Ht B S).
Qed.

(** ** C41: only a pool can draw *)
Definition takes_tokens (p : Addr) (a : BAct) : Prop :=
  match a with AWd _ q _ _ => q = p | ADrw q _ => q = p | _ => False end.
Lemma bmove_tokens c a x y p : bmove c a x y -> ~ takes_tokens p a -> pb_tokens (get_pb x p) <= pb_tokens (get_pb y p).
Proof.
  intros [H _ _ _ _] Hn. unfold bal_eff in H.
  destruct a; simpl in Hn; repeat match goal with H : exists _, _ |- _ => destruct H | H : _ /\ _ |- _ => destruct H end;
  repeat match goal with
    | H : pb_deposit _ _ _ = Ok _ |- _ => apply pb_deposit_ok in H
    | H : pb_withdraw _ _ _ = Ok _ |- _ => apply pb_withdraw_ok in H as (H & _)
    | H : pb_queue _ _ = Ok _ |- _ => apply pb_queue_ok in H
    | H : pb_dequeue _ _ = Ok _ |- _ => apply pb_dequeue_ok in H as (H & _)
    | H : same_bal _ _ |- _ => destruct H | H : upd_bal _ _ _ _ _ _ |- _ => destruct H | H : upd_pool _ _ _ _ |- _ => destruct H
    end; subst;
  match goal with
  | H : bs_pool _ = <[?q := _]> _ |- _ => rewrite (get_pb_upd _ _ _ _ _ H); destruct (Z.eqb_spec q p) as [->|]; simpl; [|lia]; try lia; tauto
  | H : bs_pool _ = bs_pool _ |- _ => rewrite (get_pb_same _ _ _ H); lia
  end.
Qed.
Lemma bmoves_tokens c l x y p : bmoves c l x y -> Forall (fun a => ~ takes_tokens p a) l -> pb_tokens (get_pb x p) <= pb_tokens (get_pb y p).
Proof.
  induction 1 as [x|a l x y z Hm _ IH]; intros Hf; [lia|]. inversion Hf; subst. etransitivity; [eapply bmove_tokens; eauto|auto].
Qed.
(** A pool's recorded tokens decrease only when a user withdraws (exactly the tokens
    paid out), when the pool itself calls [draw], or in a call of that pool. *)
Theorem C41_only_the_pool_draws w o out w' p :
  reachable w -> exec w o = Ok (out, w') -> pb_tokens (pool_bal w' p) < pb_tokens (pool_bal w p) ->
  (exists sg u n r, o = OExt sg (BWithdraw u p n) /\ u ∈ sg /\ out = OutZ r /\ pb_tokens (pool_bal w' p) = pb_tokens (pool_bal w p) - r) \/
  (exists sg n t, o = OExt sg (BDraw p n t) /\ p ∈ sg /\ pb_tokens (pool_bal w' p) = pb_tokens (pool_bal w p) - n) \/
  (exists sg po, o = OPool sg p po).
Proof.
  intros Hr H Hlt. destruct (exec_acts _ _ _ _ H Hr) as (l & Hl & Ha). unfold pool_bal in *.
  assert (Forall (fun a => ~ takes_tokens p a) l -> False) as Hno.
  { intros Hf. pose proof (bmoves_tokens _ _ _ _ p Hl Hf). lia. }
  assert (forall n, l = [n] -> ~ takes_tokens p n -> False) as H1.
  { intros n -> Hn. apply Hno. by repeat constructor. }
  destruct o as [sg o|sg a o|sg ad sa orc ra mp|b|dt ds|orc|n|b t v|b r|]; simpl in Ha.
  2:{ destruct (decide (a = p)) as [->|Hne]; [by eauto 6|]. exfalso. apply Hno. eapply Forall_impl; [exact Ha|].
      intros b [->|(n & [->| ->])]; simpl; congruence. }
  2-9: exfalso; apply (H1 _ Ha); by intros [].
  destruct o; simpl in Ha; try (exfalso; apply (H1 _ Ha); by intros []).
  - destruct Ha as (_ & _ & m & _ & ->). exfalso. eapply H1; [done|by intros []].
  - destruct Ha as (_ & ->). exfalso. eapply H1; [done|by intros []].
  - destruct Ha as (_ & ->). exfalso. eapply H1; [done|by intros []].
  - destruct Ha as (Hs & r & -> & ->). destruct (decide (pool = p)) as [->|Hne]; [|exfalso; eapply H1; [done|exact Hne]].
    left. exists sg, from, amt, r. split; [done|]. split; [done|]. split; [done|].
    apply bmoves_inv1 in Hl as [Hl _ _ _ _]. destruct Hl as (pb & ub & _ & _ & _ & _ & Hp & _ & Hup).
    apply pb_withdraw_ok in Hp as (Hp & _). by rewrite (get_pb_upd _ _ _ _ _ Hup), Z.eqb_refl, Hp.
  - destruct Ha as (Hs & ->). destruct (decide (pool = p)) as [->|Hne]; [|exfalso; eapply H1; [done|exact Hne]].
    right. left. exists sg, amt, to. split; [done|]. split; [done|].
    apply bmoves_inv1 in Hl as [Hl _ _ _ _]. destruct Hl as (pb & _ & Hp & _ & Hup).
    apply pb_withdraw_ok in Hp as (Hp & _). by rewrite (get_pb_upd _ _ _ _ _ Hup), Z.eqb_refl, Hp.
  - destruct Ha as (_ & _ & ->). exfalso. eapply H1; [done|by intros []].
  - destruct Ha as (_ & [->|(l' & -> & Hf & _)]); [exfalso; eapply H1; [done|by intros []]|].
    exfalso. apply Hno. constructor; [by intros []|]. constructor; [by intros []|]. eapply Forall_impl; [exact Hf|]. intros a (q & d & s & -> & _). by intros [].
Qed.
(** A call of one pool never changes the backstop balance of another pool. *)
Theorem C41_other_pools_untouched w sg a o out w' p :
  reachable w -> exec w (OPool sg a o) = Ok (out, w') -> p <> a -> pool_bal w' p = pool_bal w p.
Proof.
  intros Hr H Hne. destruct (exec_acts _ _ _ _ H Hr) as (l & Hl & Ha). simpl in Ha. unfold pool_bal.
  revert Ha. induction Hl as [x|b l x y z Hm _ IH]; intros Hf; [done|]. inversion Hf as [|? ? Hb Hf']; subst. rewrite IH by done.
  destruct Hm as [Hm _ _ _ _]. destruct Hb as [->|(n & [->| ->])]; simpl in Hm.
  - by apply get_pb_same, Hm.
  - destruct Hm as (pb & _ & _ & _ & Hp). rewrite (get_pb_upd _ _ _ _ _ Hp). by destruct (Z.eqb_spec a p).
  - destruct Hm as (pb & _ & _ & _ & Hp). rewrite (get_pb_upd _ _ _ _ _ Hp). by destruct (Z.eqb_spec a p).
Qed.

(** ** C42: shares move only with the owner's signature *)
Theorem C42_owner_signs w o out w' p u :
  reachable w -> exec w o = Ok (out, w') ->
  ub_shares (user_bal w' p u) < ub_shares (user_bal w p u) \/ queued_of w' p u < queued_of w p u ->
  u ∈ sig_of o /\ (exists n, (exists sg, o = OExt sg (BQueue u p n)) \/ (exists sg, o = OExt sg (BDequeue u p n)) \/ (exists sg, o = OExt sg (BWithdraw u p n))).
Proof.
  intros Hr H Hor. unfold queued_of in Hor.
  destruct (exec_user _ _ _ _ p u H Hr) as [Hs Hbb|sg n m -> Hs Hm Hbb|sg n -> Hs Hn Hlen Hbb|sg n q' -> Hs Hn Ht Hbb|sg n -> Hs Hn Hd|sg f ps lp m -> Hs Hm Hbb].
  - rewrite Hbb in Hor. lia.
  - rewrite Hbb in Hor. simpl in Hor. lia.
  - split; [done|]. exists n. eauto.
  - split; [done|]. exists n. eauto.
  - split; [done|]. exists n. eauto.
  - rewrite Hbb in Hor. simpl in Hor. lia.
Qed.
(** The total (free and queued) decreases only by a withdrawal. *)
Theorem C42_total_decreases_only_by_withdraw w o out w' p u :
  reachable w -> exec w o = Ok (out, w') ->
  ub_shares (user_bal w' p u) + queued_of w' p u < ub_shares (user_bal w p u) + queued_of w p u ->
  u ∈ sig_of o /\ exists sg n, o = OExt sg (BWithdraw u p n).
Proof.
  intros Hr H Hor. unfold queued_of in Hor. pose proof (bi_get _ _ p u (reachable_binv _ Hr)) as (_ & B & _ & S).
  destruct (exec_user _ _ _ _ p u H Hr) as [Hs Hbb|sg n m -> Hs Hm Hbb|sg n -> Hs Hn Hlen Hbb|sg n q' -> Hs Hn Ht Hbb|sg n -> Hs Hn Hd|sg f ps lp m -> Hs Hm Hbb].
  - rewrite Hbb in Hor. lia.
  - rewrite Hbb in Hor. simpl in Hor. lia.
  - rewrite Hbb in Hor. simpl in Hor. rewrite sumz_app in Hor. simpl in Hor. lia.
  - rewrite Hbb in Hor. simpl in Hor. destruct (taken_oldest_facts _ _ _ _ Ht B S) as (E & _). unfold user_bal in *. lia.
  - split; [done|]. eauto.
  - rewrite Hbb in Hor. simpl in Hor. lia.
Qed.
(** Without [u]'s signature [u]'s balance changes at most by a claim that names [u]
    as recipient, and then free shares grow and the queue stays. *)
Theorem C42_others_never_change_it w o out w' p u :
  reachable w -> exec w o = Ok (out, w') -> u ∉ sig_of o -> user_bal w' p u <> user_bal w p u ->
  exists sg f ps lp, o = OExt sg (BClaim f ps u lp) /\ f ∈ sg /\
    ub_q4w (user_bal w' p u) = ub_q4w (user_bal w p u) /\ ub_shares (user_bal w p u) <= ub_shares (user_bal w' p u).
Proof.
  intros Hr H Hu Hne.
  destruct (exec_user _ _ _ _ p u H Hr) as [Hs Hbb|sg n m -> Hs Hm Hbb|sg n -> Hs Hn Hlen Hbb|sg n q' -> Hs Hn Ht Hbb|sg n -> Hs Hn Hd|sg f ps lp m -> Hs Hm Hbb]; try done.
  exists sg, f, ps, lp. rewrite Hbb. simpl. repeat split; [done|lia].
Qed.
