(** * The event log accounts for every backstop deposit (C82) *)
From Verif Require Import Base Types Token Emitter Factory Backstop PoolReserve PoolUser PoolHealth
  PoolAuction PoolSubmit PoolEmis PoolAdmin World Events Facts XMove Spec FrameFacts PoolFrame PoolCfg BackMoves BackInv BackEmis
  PropsEmitter PropsAdmin PropsBackstop.

(** ** Specification: an indexer that sees nothing but events *)
(** leaving the queue: the oldest shares go first *)
Fixpoint take_oldest (n : Z) (q : list Q4W) : list Q4W :=
  match q with
  | [] => []
  | e :: q' => if n <? q_amount e then mkQ4W (q_amount e - n) (q_exp e) :: q' else if n =? q_amount e then q' else take_oldest (n - q_amount e) q'
  end.
(** the balance of [u] at pool [p] after an event *)
Definition ix_user (p u : Addr) (b : UserBal) (e : Event) : UserBal :=
  let mine q v := bool_decide (q = p /\ v = u) in
  match e with
  | VBDeposit q v _ n => if mine q v then mkUserBal (ub_shares b + n) (ub_q4w b) else b
  | VBQueue q v n exp => if mine q v then mkUserBal (ub_shares b - n) (ub_q4w b ++ [mkQ4W n exp]) else b
  | VBDequeue q v n => if mine q v then mkUserBal (ub_shares b + n) (take_oldest n (ub_q4w b)) else b
  | VBWithdraw q v n _ => if mine q v then mkUserBal (ub_shares b) (take_oldest n (ub_q4w b)) else b
  | _ => b
  end.
(** the totals of pool [p] after an event: shares, LP tokens, queued shares *)
Definition ix_pool (p : Addr) (b : PoolBal) (e : Event) : PoolBal :=
  match e with
  | VBDeposit q _ amt n => if q =? p then mkPoolBal (pb_shares b + n) (pb_tokens b + amt) (pb_q4w b) else b
  | VBQueue q _ n _ => if q =? p then mkPoolBal (pb_shares b) (pb_tokens b) (pb_q4w b + n) else b
  | VBDequeue q _ n => if q =? p then mkPoolBal (pb_shares b) (pb_tokens b) (pb_q4w b - n) else b
  | VBWithdraw q _ n amt => if q =? p then mkPoolBal (pb_shares b - n) (pb_tokens b - amt) (pb_q4w b - n) else b
  | VBDraw q _ n => if q =? p then mkPoolBal (pb_shares b) (pb_tokens b - n) (pb_q4w b) else b
  | VBDonate q _ n => if q =? p then mkPoolBal (pb_shares b) (pb_tokens b + n) (pb_q4w b) else b
  | _ => b
  end.

(** ** Lemmas *)
Definition told (es : list Event) (x x' : Ext) : Prop :=
  (forall p u, get_ub x' p u = fold_left (ix_user p u) es (get_ub x p u)) /\ (forall p, get_pb x' p = fold_left (ix_pool p) es (get_pb x p)).
Lemma told_app es es' x y z : told es x y -> told es' y z -> told (es ++ es') x z.
Proof. intros [H1 H2] [H3 H4]. split; intros; rewrite fold_left_app; [by rewrite H3, H1|by rewrite H4, H2]. Qed.
Definition neutral (e : Event) : Prop :=
  match e with VBDeposit _ _ _ _ | VBQueue _ _ _ _ | VBDequeue _ _ _ | VBWithdraw _ _ _ _ | VBDraw _ _ _ | VBDonate _ _ _ => False | _ => True end.
Lemma told_neutral es x x' : Forall neutral es -> same_bal x x' -> told es x x'.
Proof.
  intros Hn [Hu Hp]. split; intros.
  - rewrite (get_ub_same _ _ _ _ Hu). generalize (get_ub x p u). intros b. induction Hn as [|e es He _ IH]; [done|]. simpl.
    replace (ix_user p u b e) with b; [done|]. by destruct e.
  - rewrite (get_pb_same _ _ _ Hp). generalize (get_pb x p). intros b. induction Hn as [|e es He _ IH]; [done|]. simpl.
    replace (ix_pool p b e) with b; [done|]. by destruct e.
Qed.
Lemma told_nil x x' : same_bal x x' -> told [] x x'.
Proof. by apply told_neutral. Qed.

Lemma dequeue_take now req n q r q' : dequeue_loop now req n q = Ok (r, q') -> r <= 0 -> 0 <= n -> q' = take_oldest n q.
Proof.
  revert n. induction q as [|e q IH]; intros n H Hr Hn; simpl in *; [by injection H as _ <-|].
  destruct (negb req || _); [|done]. destruct (n <? q_amount e) eqn:E.
  - apply bind_ok in H as (a & Ha & H). apply i128_ok in Ha as [-> _]. by injection H as _ <-.
  - rewrite (Z.eqb_sym n). destruct (q_amount e =? n); [by injection H as _ <-|].
    apply bind_ok in H as (a & Ha & H). apply i128_ok in Ha as [-> _]. apply IH; [done|done|lia].
Qed.
Lemma ub_dequeue_take c b n req b' : ub_dequeue c b n req = Ok b' -> 0 <= n -> b' = mkUserBal (ub_shares b) (take_oldest n (ub_q4w b)).
Proof.
  unfold ub_dequeue. intros H Hn. apply bind_ok in H as ([r q] & H1 & H). apply assert_ok in H as [Hr H]. apply Ok_inj in H as <-.
  apply dequeue_take in H1 as ->; [by destruct b|lia|done].
Qed.

Definition act_ev (c : Ctx) (a : BAct) (es : list Event) : Prop :=
  match a with
  | ANone | AInit | ALp _ => Forall neutral es
  | ADep u p amt m | ACred u p amt m => es = [VBDeposit p u amt m]
  | AQue u p n => es = [VBQueue p u n (c_now c + Q4W_LOCK_TIME)]
  | ADeq u p n => es = [VBDequeue p u n]
  | AWd u p n r => es = [VBWithdraw p u n r]
  | ADrw p n => exists to, es = [VBDraw p to n]
  | ADon p n => exists u, es = [VBDonate p u n]
  end.
Lemma bmove_told c a es x x' : bmove c a x x' -> act_ev c a es -> told es x x'.
Proof.
  intros [H _ _ _ _] He. destruct a; simpl in H, He.
  - by apply told_neutral.
  - by apply told_neutral.
  - destruct H as [H _]. by apply told_neutral.
  - destruct H as (pb & ub & _ & _ & _ & Hp & Hu & [Hx Hy]). subst es. apply pb_deposit_ok in Hp as ->. apply ub_add_ok in Hu as ->.
    split; intros; simpl; [rewrite (get_ub_upd _ _ _ _ _ _ _ Hx)|rewrite (get_pb_upd _ _ _ _ _ Hy)].
    + case_bool_decide as E; [|done]. destruct E as [-> ->]. done.
    + destruct (Z.eqb_spec p p0) as [->|]; done.
  - destruct H as (pb & ub & _ & Hu & Hp & [Hx Hy]). subst es. apply pb_queue_ok in Hp as ->. apply ub_queue_ok in Hu as (-> & _).
    split; intros; simpl; [rewrite (get_ub_upd _ _ _ _ _ _ _ Hx)|rewrite (get_pb_upd _ _ _ _ _ Hy)].
    + case_bool_decide as E; [|done]. destruct E as [-> ->]. done.
    + destruct (Z.eqb_spec p p0) as [->|]; done.
  - destruct H as (pb & ub1 & ub & Hn & Hd & Hu & Hp & [Hx Hy]). subst es. apply pb_dequeue_ok in Hp as (-> & _). apply ub_add_ok in Hu as ->. apply ub_dequeue_take in Hd as ->; [|done].
    split; intros; simpl; [rewrite (get_ub_upd _ _ _ _ _ _ _ Hx)|rewrite (get_pb_upd _ _ _ _ _ Hy)].
    + case_bool_decide as E; [|done]. destruct E as [-> ->]. done.
    + destruct (Z.eqb_spec p p0) as [->|]; done.
  - destruct H as (pb & ub & Hn & Hd & _ & _ & Hp & [Hx Hy]). subst es. apply pb_withdraw_ok in Hp as (-> & _). apply ub_dequeue_take in Hd as ->; [|done].
    split; intros; simpl; [rewrite (get_ub_upd _ _ _ _ _ _ _ Hx)|rewrite (get_pb_upd _ _ _ _ _ Hy)].
    + case_bool_decide as E; [|done]. destruct E as [-> ->]. done.
    + destruct (Z.eqb_spec p p0) as [->|]; done.
  - destruct H as (pb & Hn & Hp & [Hx Hy]). destruct He as [to ->]. apply pb_withdraw_ok in Hp as (-> & _).
    split; intros; simpl; [by rewrite (get_ub_same _ _ _ _ Hx)|rewrite (get_pb_upd _ _ _ _ _ Hy)].
    destruct (Z.eqb_spec p p0) as [->|]; [|done]. by rewrite !Z.sub_0_r.
  - destruct H as (pb & Hn & Hp & [Hx Hy]). destruct He as [to ->]. apply pb_deposit_ok in Hp as ->.
    split; intros; simpl; [by rewrite (get_ub_same _ _ _ _ Hx)|rewrite (get_pb_upd _ _ _ _ _ Hy)].
    destruct (Z.eqb_spec p p0) as [->|]; [|done]. by rewrite !Z.add_0_r.
  - destruct H as (pb & ub & _ & _ & Hp & Hu & [Hx Hy]). subst es. apply pb_deposit_ok in Hp as ->. apply ub_add_ok in Hu as ->.
    split; intros; simpl; [rewrite (get_ub_upd _ _ _ _ _ _ _ Hx)|rewrite (get_pb_upd _ _ _ _ _ Hy)].
    + case_bool_decide as E; [|done]. destruct E as [-> ->]. done.
    + destruct (Z.eqb_spec p p0) as [->|]; done.
Qed.

(** claims *)
Lemma claim_deps_told (c : Ctx) n lp m t ps x x' es0 :
  foldM (claim_dep n lp m t) x ps = Ok x' -> 0 < n -> 0 <= lp -> (forall p a, m !! p = Some a -> 0 <= a) -> bs_init (x_bs x) = true ->
  exists es, foldM (claim_dep_ev n lp m t) (es0, x) ps = Ok (es0 ++ es, x') /\ told es x x'.
Proof.
  intros H Hn Hl Hm. revert x es0 H. induction ps as [|p ps IH]; cbn [foldM]; intros x es0 H Hin.
  { apply Ok_inj in H as ->. exists []. rewrite app_nil_r. split; [done|]. by apply told_nil. }
  apply bind_ok in H as (x1 & H1 & H). pose proof H1 as H1'. unfold claim_dep in H1'. mon H1'.
  apply (claim_dep_move c) in H1 as Hmv; [|done..]. destruct Hmv as [sh Hmv]. pose proof (bm_bal _ _ _ _ Hmv) as (pb0 & ub0 & _ & Hs0 & _).
  pose proof E0 as E0'. apply fmul_floor_ok in E0' as [Ed _]; [|done]. unfold unwrap in E. destruct (m !! p) as [b|] eqn:Ep; [|done]. injection E as <-. cbn [default from_option id] in *. rewrite <- Ed in Hmv, Hs0.
  rewrite Hs0 in E1. apply Ok_inj in E1 as <-.
  edestruct (IH _ (es0 ++ [VBDeposit p t dep sh]) H) as (es & He & Ht); [by destruct (bm_init _ _ _ _ Hmv) as [-> _]|].
  eexists ([VBDeposit p t dep sh] ++ es). rewrite app_assoc, <- He. split.
  - unfold claim_dep_ev at 1. rewrite Ep. cbn [unwrap bind]. rewrite E0. cbn [bind]. rewrite Hs0. cbn [bind]. rewrite H1. cbn [bind]. done.
  - eapply told_app; [|exact Ht]. by eapply bmove_told.
Qed.
Lemma claim_told c x u ps t lp n x' : b_claim c x u ps t lp = Ok (n, x') -> emis_nonneg x -> users_nonneg x ->
  exists es, claim_ev c x u ps t lp = Ok es /\ told es x x'.
Proof.
  unfold b_claim, claim_ev. intros H He Hu. apply bind_ok in H as (? & _ & H). apply assert_ok in H as [_ H]. apply bind_ok in H as ([[n1 m1] x1] & H1 & H). rewrite H1. cbn [bind].
  apply (claim_loop _ _ _ []) in H1 as (He1 & Hf & Hn & Hm & Hs); [|done|done|set_solver|set_solver|done].
  destruct (0 <? n1) eqn:En.
  - apply assert_ok in H as [Hi H]. cbv zeta in H. apply bind_ok in H as (t1 & T1 & H). rewrite T1. cbn [bind]. apply bind_ok in H as (t2 & T2 & H). rewrite T2. cbn [bind]. apply bind_ok in H as (x2 & H & H2). apply Ok_inj in H2. injection H2 as _ <-.
    apply (claim_deps_told c _ _ _ _ _ _ _ []) in H as (es & Hes & Ht); [|lia|by apply mint_spec in T2 as [? _]|done|done].
    rewrite Hes. cbn [bind]. eexists. split; [done|]. cbn [app]. replace es with ([] ++ es) by done. eapply told_app; [eapply told_app; [|exact Ht]|apply told_neutral; [by repeat constructor|done]].
    apply told_nil. destruct Hf as [[? ?] _]. split; done.
  - apply Ok_inj in H. injection H as _ <-. eexists. split; [done|]. apply told_neutral; [by repeat constructor|]. by destruct Hf.
Qed.

(** requests *)
Lemma foldM_ok_frame {A B} (P : A -> A -> Prop) (f : A -> B -> res A) l a a' :
  (forall a, P a a) -> (forall a b c, P a b -> P b c -> P a c) -> (forall a b a', f a b = Ok a' -> P a a') -> foldM f a l = Ok a' -> P a a'.
Proof.
  intros Hr Ht Hf. revert a. induction l as [|b l IH]; cbn [foldM]; intros a H; [apply Ok_inj in H as ->; apply Hr|].
  apply bind_ok in H as (a1 & H1 & H). eapply Ht; [by eapply Hf|by apply IH].
Qed.
Lemma debts_ev_ok self u l liab m : burn_map l liab = Ok m -> exists es, debts_ev self u l liab = Ok es /\ Forall neutral es.
Proof.
  unfold burn_map, debts_ev.
  assert (forall m0 es0, Forall neutral es0 -> foldM (fun m e => let? a := list_get l (fst e) in Ok (<[a := snd e]> m)) m0 (entries liab) = Ok m ->
    exists es, foldM (fun es e => let? a := list_get l (fst e) in Ok (es ++ [VBadDebt self u a (snd e)])) es0 (entries liab) = Ok es /\ Forall neutral es) as Hx.
  2:{ intros H. by apply (Hx ∅ []). }
  induction (entries liab) as [|e es IH]; cbn [foldM]; intros m0 es0 Hn H; [by exists es0|].
  apply bind_ok in H as (m1 & H1 & H). apply bind_ok in H1 as (a & Ha & H1). rewrite Ha. cbn [bind]. apply Ok_inj in H1 as <-. eapply IH; [|exact H]. apply Forall_app. split; [done|by repeat constructor].
Qed.
Lemma log_burns_bal self ch m x : same_bal x (log_burns self ch m x).
Proof. unfold log_burns. induction (entries m) as [|e l IH]; [done|]. simpl. done. Qed.

(** what a request does and publishes *)
Definition plain_step (now : Z) (from : Addr) (s s' : Loop) (a : Addr) (f : Z -> PoolSt -> Addr -> Positions -> Reserve -> Z -> res (PoolSt * Positions * Reserve)) (n : Z) : Prop :=
  exists r ch r1, load_reserve now (lo_p s) (lo_ch s) a true = Ok (r, ch) /\ f now (lo_p s) from (lo_pos s) r n = Ok (lo_p s', lo_pos s', r1) /\ lo_x s' = lo_x s /\ lo_ch s' = cache_reserve ch r1.
Lemma supply_step now from s q s' mk : do_supply now from s q = Ok s' ->
  exists n, supply_ev now s q mk = Ok [mk (rq_amt q) n] /\ plain_step now from s s' (rq_addr q) add_supply n.
Proof.
  unfold do_supply, supply_ev. intros H. apply bind_ok in H as ([r ch] & Hl & H). rewrite Hl. cbn [bind]. apply bind_ok in H as (m & -> & H). cbn [bind].
  apply bind_ok in H as ([[p1 pos] r1] & Hf & H). apply bind_ok in H as (ac & _ & H). apply Ok_inj in H as <-. exists m. split; [done|]. by exists r, ch, r1.
Qed.
Lemma supply_coll_step now from s q s' mk : do_supply_coll now from s q = Ok s' ->
  exists n, supply_ev now s q mk = Ok [mk (rq_amt q) n] /\ plain_step now from s s' (rq_addr q) add_collateral n.
Proof.
  unfold do_supply_coll, supply_ev. intros H. apply bind_ok in H as ([r ch] & Hl & H). rewrite Hl. cbn [bind]. apply bind_ok in H as (m & -> & H). cbn [bind].
  apply bind_ok in H as ([[p1 pos] r1] & Hf & H). apply bind_ok in H as (ac & _ & H). apply Ok_inj in H as <-. exists m. split; [done|]. by exists r, ch, r1.
Qed.
Lemma withdraw_step now from s q s' mk : do_withdraw now from s q = Ok s' ->
  exists amt n, withdraw_ev now s q get_sup mk = Ok [mk amt n] /\ plain_step now from s s' (rq_addr q) remove_supply n.
Proof.
  unfold do_withdraw, withdraw_ev. intros H. apply bind_ok in H as ([r ch] & Hl & H). rewrite Hl. cbn [bind]. cbv zeta in *. apply bind_ok in H as (m & -> & H). cbn [bind].
  apply bind_ok in H as ([tb out] & Hb & H). apply bind_ok in H as ([[p1 pos] r1] & Hf & H). apply bind_ok in H as (ac & _ & H). apply Ok_inj in H as <-. exists out, tb. split.
  - destruct (_ <? m); [|by injection Hb as -> ->]. apply bind_ok in Hb as (o & -> & Hb). cbn [bind]. by injection Hb as -> ->.
  - by exists r, ch, r1.
Qed.
Lemma withdraw_coll_step now from s q s' mk : do_withdraw_coll now from s q = Ok s' ->
  exists amt n, withdraw_ev now s q get_coll mk = Ok [mk amt n] /\ plain_step now from s s' (rq_addr q) remove_collateral n.
Proof.
  unfold do_withdraw_coll, withdraw_ev. intros H. apply bind_ok in H as ([r ch] & Hl & H). rewrite Hl. cbn [bind]. cbv zeta in *. apply bind_ok in H as (m & -> & H). cbn [bind].
  apply bind_ok in H as ([tb out] & Hb & H). apply bind_ok in H as ([[p1 pos] r1] & Hf & H). apply bind_ok in H as (ac & _ & H). apply Ok_inj in H as <-. exists out, tb. split.
  - destruct (_ <? m); [|by injection Hb as -> ->]. apply bind_ok in Hb as (o & -> & Hb). cbn [bind]. by injection Hb as -> ->.
  - by exists r, ch, r1.
Qed.
Lemma borrow_step now from s q s' mk : do_borrow now from s q = Ok s' ->
  exists n, borrow_ev now s q mk = Ok [mk (rq_amt q) n] /\ plain_step now from s s' (rq_addr q) add_liabilities n.
Proof.
  unfold do_borrow, borrow_ev. intros H. apply bind_ok in H as ([r ch] & Hl & H). rewrite Hl. cbn [bind]. apply bind_ok in H as (m & -> & H). cbn [bind].
  apply bind_ok in H as ([[p1 pos] r1] & Hf & H). apply bind_ok in H as (? & _ & H). apply bind_ok in H as (ac & _ & H). apply Ok_inj in H as <-. exists m. split; [done|]. by exists r, ch, r1.
Qed.
Lemma repay_step now from s q s' mk : do_repay now from s q = Ok s' ->
  exists amt n, repay_ev now s q mk = Ok [mk amt n] /\ plain_step now from s s' (rq_addr q) remove_liabilities n.
Proof.
  unfold do_repay, repay_ev. intros H. apply bind_ok in H as ([r ch] & Hl & H). rewrite Hl. cbn [bind]. cbv zeta in *. apply bind_ok in H as (m & -> & H). cbn [bind].
  apply bind_ok in H as (ac & _ & H). destruct (_ <? m).
  - apply bind_ok in H as (ow & Ho & H). rewrite Ho. cbn [bind]. apply bind_ok in H as (rf & Hrf & H). rewrite Hrf. cbn [bind]. apply bind_ok in H as (? & Hn & H). apply bind_ok in H as ([[p1 pos] r1] & Hf & H).
    apply bind_ok in H as (ac' & _ & H). apply Ok_inj in H as <-. apply i128_ok in Hrf as [-> Hb].
    assert (i128 (rq_amt q - (rq_amt q - ow)) = Ok ow) as ->.
    { apply fmul_ceil_ok in Ho as [_ Ho]; [|done]. replace (rq_amt q - (rq_amt q - ow)) with ow by lia. by apply i128_is. }
    cbn [bind]. eexists _, _. split; [done|]. by exists r, ch, r1.
  - apply bind_ok in H as ([[p1 pos] r1] & Hf & H). apply Ok_inj in H as <-. eexists _, _. split; [done|]. by exists r, ch, r1.
Qed.

Lemma plain_told now from s s' a f n es : plain_step now from s s' a f n -> Forall neutral es -> told es (lo_x s) (lo_x s').
Proof. intros (r & ch & r1 & _ & _ & -> & _) He. by apply told_neutral. Qed.
Lemma fill_told c self from s q s' t chk : do_fill c self from t chk s q = Ok s' -> t = 0 \/ t = 1 \/ t = 2 ->
  exists es, request_ev c self from s (mkReq (6 + t) (rq_addr q) (rq_amt q)) = Ok (es ++ [VFill self (rq_addr q) t from (rq_amt q)]) /\ told es (lo_x s) (lo_x s').
Proof.
  unfold do_fill. intros H Ht. apply bind_ok in H as ([[[p ch] pos] x] & Hf & H). apply Ok_inj in H as <-. cbn [lo_x].
  unfold fill in Hf. apply assert_ok in Hf as [_ Hf]. apply bind_ok in Hf as (au & Hau & Hf). apply bind_ok in Hf as ([tf rem] & Hsc & Hf).
  apply bind_ok in Hf as ([[[p1 ch1] pos1] x1] & Hk & Hf). cbv zeta in Hf. assert (x1 = x) as -> by (apply Ok_inj in Hf; by injection Hf). clear Hf.
  destruct Ht as [->|[->| ->]]; cbn [Z.eqb Pos.eqb] in Hk; unfold request_ev; cbn [rq_type rq_addr rq_amt Z.add Pos.add Pos.succ]; cbv zeta.
  - apply bind_ok in Hk as (s1 & _ & Hk). apply Ok_inj in Hk. injection Hk as _ <-. exists []. split; [done|]. by apply told_nil.
  - cbv beta iota in Hk. unfold fill_bad_debt in Hk. cbv zeta in Hk. apply assert_ok in Hk as [_ Hk]. unfold fill_bad_debt_ev. cbv zeta. rewrite Hau. cbn [bind]. rewrite Hsc. cbn [bind].
    apply bind_ok in Hk as ([[p2 ch2] bpos] & -> & Hk). cbn [bind]. apply bind_ok in Hk as ([[p3 ch3] fpos] & -> & Hk). cbn [bind].
    apply bind_ok in Hk as (btok & -> & Hk). cbn [bind]. apply bind_ok in Hk as (lot & -> & Hk). cbn [bind]. apply bind_ok in Hk as (x2 & Hd & Hk). rewrite Hd. cbn [bind].
    apply b_draw_move in Hd as [Hd _]. assert (told [VBDraw self from lot] (lo_x s) x2) as T1 by (eapply bmove_told; [exact Hd|by eexists]).
    destruct (bool_decide (po_liab bpos = ∅)).
    { apply Ok_inj in Hk. injection Hk as _ _ _ <-. cbn [bind]. by eexists [_]. }
    apply bind_ok in Hk as (pd & -> & Hk). cbn [bind]. destruct (threshold pd <? 3).
    + apply bind_ok in Hk as (m & Hm & Hk). destruct (debts_ev_ok self (ps_backstop (lo_p s)) _ _ _ Hm) as (es & -> & Hes). cbn [bind].
      apply bind_ok in Hk as ([[p4 ch4] bpos4] & _ & Hk). apply Ok_inj in Hk. injection Hk as _ _ _ <-. exists ([VBDraw self from lot] ++ es). split; [done|].
      eapply told_app; [exact T1|]. apply told_neutral; [done|apply log_burns_bal].
    + apply Ok_inj in Hk. injection Hk as _ _ _ <-. cbn [bind]. by eexists [_].
  - cbv beta iota in Hk. apply bind_ok in Hk as ([ch2 x2] & Hk & Hx). apply Ok_inj in Hx. injection Hx as _ _ _ <-.
    unfold fill_interest in Hk. apply assert_ok in Hk as [_ Hk]. unfold fill_interest_ev. rewrite Hau. cbn [bind]. rewrite Hsc. cbn [bind].
    apply bind_ok in Hk as (btok & -> & Hk). cbn [bind]. apply bind_ok in Hk as (bid & -> & Hk). cbn [bind]. apply bind_ok in Hk as (x3 & Hd & Hk).
    apply b_donate_move in Hd as [Hd _]. assert (told [VBDonate self from bid] (lo_x s) x3) as T1 by (eapply bmove_told; [exact Hd|by eexists]).
    eexists [_]. split; [done|]. replace [VBDonate self from bid] with ([VBDonate self from bid] ++ []) by done. eapply told_app; [exact T1|].
    apply told_nil. apply (foldM_ok_frame (fun a b => same_bal a.2 b.2)) in Hk; [exact Hk|done| |].
    * intros a b d [? ?] [? ?]. split; congruence.
    * intros [ch' x'] e a' Hi. unfold interest_fill_one in Hi. apply bind_ok in Hi as ([r ch''] & _ & Hi). apply bind_ok in Hi as (cr & _ & Hi). cbv zeta in Hi. apply bind_ok in Hi as (tk & _ & Hi).
      apply Ok_inj in Hi as <-. done.
Qed.
Lemma request_told c self from s q s' : do_request c self from s q = Ok s' ->
  exists es, request_ev c self from s q = Ok es /\ told es (lo_x s) (lo_x s').
Proof.
  unfold do_request. intros H. cbv zeta in H. apply bind_ok in H as (? & _ & H). apply bind_ok in H as (? & _ & H).
  assert (forall t chk, rq_type q = 6 + t -> do_fill c self from t chk s q = Ok s' -> t = 0 \/ t = 1 \/ t = 2 -> exists es, request_ev c self from s q = Ok es /\ told es (lo_x s) (lo_x s')) as HF.
  { intros t chk Hq Hf Ht. destruct (fill_told _ _ _ _ _ _ _ _ Hf Ht) as (es & He & T). rewrite <- Hq in He. replace (mkReq (rq_type q) (rq_addr q) (rq_amt q)) with q in He by (by destruct q).
    eexists. split; [exact He|]. eapply told_app; [exact T|]. apply told_neutral; [by repeat constructor|done]. }
  assert (forall e, neutral e -> Forall neutral [e]) as N1 by (intros e He; constructor; [exact He|constructor]).
  unfold request_ev in *. cbv zeta in *. destruct (rq_type q) as [|k|k]; [|repeat (match goal with k : positive |- _ => destruct k as [k|k|]; try discriminate H end)|discriminate H].
  all: first
    [ apply (supply_step _ _ _ _ _ (VSupply self (rq_addr q) from)) in H as (n & -> & Hp); eexists; split; [done|]; eapply plain_told; [exact Hp|apply N1; exact I]
    | apply (supply_coll_step _ _ _ _ _ (VSupplyColl self (rq_addr q) from)) in H as (n & -> & Hp); eexists; split; [done|]; eapply plain_told; [exact Hp|apply N1; exact I]
    | apply (withdraw_step _ _ _ _ _ (VWithdraw self (rq_addr q) from)) in H as (amt & n & -> & Hp); eexists; split; [done|]; eapply plain_told; [exact Hp|apply N1; exact I]
    | apply (withdraw_coll_step _ _ _ _ _ (VWithdrawColl self (rq_addr q) from)) in H as (amt & n & -> & Hp); eexists; split; [done|]; eapply plain_told; [exact Hp|apply N1; exact I]
    | apply (borrow_step _ _ _ _ _ (VBorrow self (rq_addr q) from)) in H as (n & -> & Hp); eexists; split; [done|]; eapply plain_told; [exact Hp|apply N1; exact I]
    | apply (repay_step _ _ _ _ _ (VRepay self (rq_addr q) from)) in H as (amt & n & -> & Hp); eexists; split; [done|]; eapply plain_told; [exact Hp|apply N1; exact I]
    | apply (HF 0 true eq_refl H); auto | apply (HF 1 true eq_refl H); auto | apply (HF 2 false eq_refl H); auto
    | unfold do_delete in H; apply bind_ok in H as (p1 & _ & H); apply Ok_inj in H as <-; eexists; split; [done|]; apply told_neutral; [apply N1; exact I|done] ].
Qed.
Lemma requests_told c self from qs s s' : foldM (do_request c self from) s qs = Ok s' ->
  exists es, requests_ev c self from s qs = Ok es /\ told es (lo_x s) (lo_x s').
Proof.
  revert s. induction qs as [|q qs IH]; cbn [foldM requests_ev]; intros s H; [apply Ok_inj in H as ->; exists []; split; [done|by apply told_nil]|].
  apply bind_ok in H as (s1 & H1 & H). apply request_told in H1 as Hq. destruct Hq as (e & -> & T1). cbn [bind]. rewrite H1. cbn [bind]. apply IH in H as (es & -> & T2). cbn [bind].
  eexists. split; [done|]. by eapply told_app.
Qed.
Lemma submit_told c self px from spender to qs pos px' : p_submit c self px from spender to qs = Ok (pos, px') ->
  exists es, submit_ev c self (px_p px) (px_x px) from qs = Ok es /\ told es (px_x px) (px_x px').
Proof.
  unfold p_submit, build_actions, submit_ev. intros H. apply bind_ok in H as (? & _ & H). apply bind_ok in H as (? & _ & H). apply assert_ok in H as [_ H]. cbv zeta in H.
  apply bind_ok in H as (s & Hs & H). apply bind_ok in Hs as (s0 & Hs & Hu). apply bind_ok in Hu as (? & _ & Hu). apply Ok_inj in Hu as ->.
  apply requests_told in Hs as (es & Hes & T). exists es. split; [exact Hes|]. cbn [lo_x] in T.
  apply bind_ok in H as (ch & _ & H). apply bind_ok in H as (t & _ & H). apply bind_ok in H as (p & _ & H). apply bind_ok in H as (t' & _ & H). apply Ok_inj in H. injection H as _ <-. cbn [px_x].
  replace es with (es ++ []) by apply app_nil_r. eapply told_app; [exact T|]. by apply told_nil.
Qed.

(** ** A whole transaction *)
Lemma debts_ev_neutral self u l liab es : debts_ev self u l liab = Ok es -> Forall neutral es.
Proof.
  unfold debts_ev. assert (forall en es0 es, Forall neutral es0 -> foldM (fun es e => let? a := list_get l (fst e) in Ok (es ++ [VBadDebt self u a (snd e)])) es0 en = Ok es -> Forall neutral es) as HF.
  { intros en. induction en as [|e en IH]; cbn [foldM]; intros es0 es' H0 H; [by apply Ok_inj in H as <-|]. apply bind_ok in H as (es1 & H1 & H). apply bind_ok in H1 as (a & _ & H1). apply Ok_inj in H1 as <-.
    eapply IH; [|exact H]. apply Forall_app. split; [done|]. constructor; [exact I|constructor]. }
  apply HF. constructor.
Qed.
Lemma neutral_fold {A} (f : list Event -> A -> res (list Event)) en : (forall l e l', f l e = Ok l' -> Forall neutral l -> Forall neutral l') -> forall l l', foldM f l en = Ok l' -> Forall neutral l -> Forall neutral l'.
Proof. intros Hf. induction en as [|e en IH]; cbn [foldM]; intros l l' H Hn; [by apply Ok_inj in H as <-|]. apply bind_ok in H as (l1 & H1 & H). eauto. Qed.
Lemma pool_told c self px o out px' : p_exec c self px o = Ok (out, px') ->
  match pool_ev c self (px_p px) (px_x px) o out (px_p px') with Ok es => told es (px_x px) (px_x px') | Err _ => same_bal (px_x px) (px_x px') end.
Proof.
  intros H. 
  assert (forall r, same_bal (px_x px) (px_x px') -> (forall es, r = Ok es -> Forall neutral es) -> match r : res (list Event) with Ok es => told es (px_x px) (px_x px') | Err _ => same_bal (px_x px) (px_x px') end) as HN.
  { intros r Hs Hr. destruct r; [|done]. by apply told_neutral; [apply Hr|]. }
  assert (forall e es, neutral e -> Ok [e] = Ok es -> Forall neutral es) as N1 by (intros e es He [= <-]; constructor; [exact He|constructor]).
  assert (forall f, on_pool px f = Ok (out, px') -> px_x px' = px_x px) as HP.
  { intros f Hf. unfold on_pool in Hf. apply bind_ok in Hf as (p & _ & Hf). apply Ok_inj in Hf. injection Hf as _ <-. done. }
  assert (px_x px' = px_x px -> same_bal (px_x px) (px_x px')) as HS by (intros ->; done).
  destruct o; unfold p_exec in H; cbv zeta in H; [apply HP in H; apply HN; [by apply HS|by intros ? [= <-]]| |..]; apply assert_ok in H as [_ H].
  all: try (apply HP in H; apply HN; [by apply HS|]; cbn [pool_ev]; first [intros es; apply N1; exact I|intros es He; by eapply debts_ev_neutral|by intros ? [= <-]]).
  - apply bind_ok in H as ([i p] & _ & H). apply Ok_inj in H. injection H as <- <-. apply HN; [done|]. intros es; apply N1; exact I.
  - apply bind_ok in H as ([pos px1] & H1 & H). apply Ok_inj in H. injection H as <- <-. apply submit_told in H1 as (es & He & T). cbn [pool_ev]. by rewrite He.
  - apply bind_ok in H as ([i p] & _ & H). apply Ok_inj in H. injection H as <- <-. apply HN; [done|]. intros es; apply N1; exact I.
  - unfold ret_z in H. apply bind_ok in H as ([n px1] & H1 & H). apply Ok_inj in H. injection H as <- <-. unfold p_gulp in H1. apply bind_ok in H1 as ([n1 x1] & H1 & H). apply bind_ok in H as (p1 & _ & H). apply Ok_inj in H. injection H as <- <-.
    cbn [px_x px_p] in *. unfold to_backstop in H1. apply assert_ok in H1 as [_ H1]. apply b_gulp_pool_move in H1 as [H1 _ _ _ _]. apply HN; [done|]. intros es He. cbn [pool_ev] in He. apply bind_ok in He as (es0 & He & He').
    apply Ok_inj in He' as <-. apply Forall_app. split; [|constructor; [exact I|constructor]]. eapply neutral_fold; [|exact He|constructor]. intros l0 e l1 H2 H0. apply bind_ok in H2 as (ec & _ & H2). apply Ok_inj in H2 as <-. apply Forall_app. split; [done|]. constructor; [exact I|constructor].
  - unfold ret_z in H. apply bind_ok in H as ([n px1] & H1 & H). apply Ok_inj in H. injection H as <- <-. apply HN; [|intros es; apply N1; exact I]. unfold p_claim in H1. apply bind_ok in H1 as (? & _ & H1). cbv zeta in H1. apply bind_ok in H1 as ([tot p'] & _ & H1).
    destruct (0 <? tot); [apply bind_ok in H1 as (t & _ & H1)|]; apply Ok_inj in H1; injection H1 as _ <-; done.
  - apply bind_ok in H as ([i p] & _ & H). apply Ok_inj in H. injection H as <- <-. apply HN; [done|]. intros es; apply N1; exact I.
  - apply bind_ok in H as ([i p] & _ & H). apply Ok_inj in H. injection H as <- <-. apply HN; [done|]. intros es; apply N1; exact I.
  - apply bind_ok in H as ([i p] & _ & H). apply Ok_inj in H. injection H as <- <-. apply HN; [done|]. intros es; apply N1; exact I.
Qed.
Lemma exec_told w o out w' : exec w o = Ok (out, w') -> reachable w -> told (events w o) (w_ext w) (w_ext w').
Proof.
  intros H Hr. unfold events. rewrite H.
  destruct (exec_acts _ _ _ _ H Hr) as (acts & Hl & Hacts). destruct (reachable_ginv w Hr) as [Hb [He _]].
  assert (l1 : forall a es, acts = [a] -> act_ev (ctx w (sig_of o)) a es -> told es (w_ext w) (w_ext w')).
  { intros a es -> Ha. inversion Hl as [|? ? ? ? ? H1 H2]; subst. inversion H2; subst. by eapply bmove_told. }
  destruct o as [sg xo|sg a po|sg ad salt orc rate mp|b|dt ds|orc|n|b t u|b r|].
  2:{ unfold op_ev. cbn [exec] in H. apply assert_ok in H as [_ H]. apply bind_ok in H as (p & Hp & H). apply bind_ok in H as ([out1 px] & H1 & H). apply Ok_inj in H. injection H as <- <-. rewrite Hp. cbn [bind].
      change (w_pools _) with (<[a := px_p px]> (w_pools w)) at 1. rewrite lookup_insert. cbn [bind unwrap]. change (w_ext (_ <| w_ext := px_x px |>)) with (px_x px). apply pool_told in H1. cbn [px_p px_x] in H1.
      destruct (pool_ev _ _ _ _ _ _ _); [done|by apply told_nil]. }
  2-9: cbn [acts_of op_ev] in *; apply (l1 ANone); [done|]; constructor; [exact I|constructor] || constructor.
  cbn [op_ev]. destruct xo; cbn [acts_of ext_ev] in *.
  all: try (apply (l1 ANone); [exact Hacts|]; cbn [act_ev];
    match goal with |- Forall neutral (match ?r with Ok _ => _ | Err _ => _ end) => assert (forall es, r = Ok es -> Forall neutral es) as HN; [intros es Hes|destruct r; [by apply HN|constructor]]
     | |- Forall neutral [] => constructor | |- Forall neutral [_] => constructor; [exact I|constructor] end;
    repeat (match goal with Hes : match ?o with OutUnit => _ | _ => _ end = _ |- _ => destruct o | Hes : bind _ _ = _ |- _ => apply bind_ok in Hes as (? & _ & Hes) end); apply Ok_inj in Hes as <-; repeat first [exact I|constructor]; fail).
  - apply (l1 AInit); [done|]. constructor.
  - destruct Hacts as (_ & _ & m & -> & Ha). by eapply l1.
  - destruct Hacts as (_ & Ha). cbn [exec] in H. apply assert_ok in H as [_ H]. apply bind_ok in H as ([o1 x1] & H1 & H). apply Ok_inj in H. injection H as <- <-. cbn [x_exec] in H1. apply bind_ok in H1 as ([q x2] & H1 & H). apply Ok_inj in H. injection H as <- <-.
    eapply l1; [exact Ha|]. cbn [act_ev]. unfold b_queue in H1. apply bind_ok in H1 as (? & _ & H1). apply bind_ok in H1 as (? & _ & H1). cbv zeta in H1. apply bind_ok in H1 as ([z y] & _ & H1). apply bind_ok in H1 as (ub & Hu & H1). apply bind_ok in H1 as (pb & _ & H1). apply bind_ok in H1 as (q1 & Hq & H1). apply Ok_inj in H1. injection H1 as <- _.
    apply ub_queue_ok in Hu as (-> & _). cbn [ub_q4w] in Hq. rewrite last_snoc in Hq. apply Ok_inj in Hq as <-. done.
  - destruct Hacts as (_ & Ha). by eapply l1.
  - destruct Hacts as (_ & r & -> & Ha). by eapply l1.
  - destruct Hacts as (_ & Ha). eapply l1; [exact Ha|]. by eexists.
  - destruct Hacts as (_ & _ & Ha). eapply l1; [exact Ha|]. by eexists.
  - cbn [exec] in H. apply assert_ok in H as [_ H]. apply bind_ok in H as ([o1 x1] & H1 & H). apply Ok_inj in H. injection H as <- <-. cbn [x_exec] in H1. unfold ret_z in H1. apply bind_ok in H1 as ([n x2] & H1 & H). apply Ok_inj in H. injection H as <- <-.
    apply claim_told in H1 as (es & Hes & T); [|done|by eapply binv_users]. cbn [ext_ev]. rewrite Hes. exact T.
Qed.
Lemma step_told w o : reachable w -> told (events w o) (w_ext w) (w_ext (step w o)).
Proof.
  intros Hr. unfold step. destruct (exec w o) as [[out w']|] eqn:E; [by eapply exec_told|]. unfold events. rewrite E. by apply told_nil.
Qed.
Lemma log_told l : forall w, reachable w -> told (map snd (event_log w l)) (w_ext w) (w_ext (run w l)).
Proof.
  induction l as [|o l IH]; intros w Hr; cbn [event_log run fold_left]; [by apply told_nil|]. rewrite map_app, map_map. simpl. rewrite map_id.
  eapply told_app; [by apply step_told|]. apply IH. apply (reachable_run w [o] Hr).
Qed.

(** ** C82: replaying the events of any history on the balances before it gives exactly the balances after it — for
    every user, queue entry and pool total; from the genesis, on nothing. *)
Theorem C82_user_balances_replay w l p u : reachable w ->
  user_bal (run w l) p u = fold_left (ix_user p u) (map snd (event_log w l)) (user_bal w p u).
Proof. intros Hr. by apply log_told. Qed.
Theorem C82_pool_balances_replay w l p : reachable w ->
  pool_bal (run w l) p = fold_left (ix_pool p) (map snd (event_log w l)) (pool_bal w p).
Proof. intros Hr. by apply log_told. Qed.
Theorem C82_from_genesis w l p u : initial w ->
  user_bal (run w l) p u = fold_left (ix_user p u) (map snd (event_log w l)) (mkUserBal 0 []) /\
  pool_bal (run w l) p = fold_left (ix_pool p) (map snd (event_log w l)) (mkPoolBal 0 0 0).
Proof.
  intros Hi. assert (reachable w) as Hr by (by exists w, []). rewrite (C82_user_balances_replay w l p u Hr), (C82_pool_balances_replay w l p Hr).
  destruct Hi as (now & seq & t & o & lp & -> & _). done.
Qed.

(** ** What is published is always determined: the fallback of [events] is never used *)
Lemma update_res_ecfg_set now p a id n p' : update_res_ecfg now p a id n = Ok p' -> forall j, is_Some (ps_ecfg p' !! j) <-> j = id \/ is_Some (ps_ecfg p !! j).
Proof.
  unfold update_res_ecfg. intros H. apply bind_ok in H as ([lft p1] & H1 & H). apply bind_ok in H as (e & _ & H). apply bind_ok in H as (eps & _ & H). apply Ok_inj in H as <-.
  assert (ps_ecfg p1 = ps_ecfg p) as Ep.
  { destruct (ps_ecfg p !! id) as [cfg|]; [|by injection H1 as _ <-]. apply bind_ok in H1 as (rc & _ & H1). apply bind_ok in H1 as (rd & _ & H1). cbv zeta in H1. apply bind_ok in H1 as (sc & _ & H1). apply bind_ok in H1 as ([d p2] & H2 & H1).
    assert (ps_ecfg p2 = ps_ecfg p) as E2.
    { unfold update_edata in H2. apply bind_ok in H2 as (d0 & _ & H2). destruct (_ || _); [apply Ok_inj in H2; by injection H2 as _ <-|]. cbv zeta in H2. apply bind_ok in H2 as (? & _ & H2). apply bind_ok in H2 as (? & _ & H2). apply bind_ok in H2 as (? & _ & H2). apply bind_ok in H2 as (? & _ & H2). apply Ok_inj in H2. by injection H2 as _ <-. }
    assert (ps_ecfg p1 = ps_ecfg (if negb (ed_last d =? now) then set_edata p2 id (mkEmisData (ed_index d) now) else p2)) as ->.
    { destruct (now <? ec_exp cfg); [apply bind_ok in H1 as (? & _ & H1); apply bind_ok in H1 as (? & _ & H1); apply bind_ok in H1 as (? & _ & H1)|]; apply Ok_inj in H1; by injection H1 as _ <-. }
    by destruct (negb _). }
  intros j. unfold set_ecfg. simpl. rewrite Ep. destruct (decide (j = id)) as [->|Hne]; [rewrite lookup_insert|rewrite lookup_insert_ne by done]; split; eauto; intros [?|?]; done.
Qed.
Lemma gulp_set now n : forall en p p', foldM (gulp_res now n) p en = Ok p' -> forall j, is_Some (ps_ecfg p' !! j) <-> (exists v, (j, v) ∈ en) \/ is_Some (ps_ecfg p !! j).
Proof.
  induction en as [|[id v] en IH]; cbn [foldM]; intros p p' H j; [apply Ok_inj in H as <-; split; [by right|intros [[v Hv]|?]; [set_solver|done]]|].
  apply bind_ok in H as (p1 & H1 & H). apply bind_ok in H1 as (a & _ & H1). apply bind_ok in H1 as (m & _ & H1). apply update_res_ecfg_set with (j := j) in H1. rewrite (IH _ _ H j), H1. cbn [fst].
  split; [intros [[v' Hv]|[->|?]]; [left; exists v'; by right|left; exists v; by left|by right]|intros [[v' Hv]|?]; [apply elem_of_cons in Hv as [[= -> ->]|Hv]; [by right; left|left; eauto]|by right; right]].
Qed.
Lemma foldM_defined {S A} (f : S -> A -> res S) l : (forall s a, a ∈ l -> exists s', f s a = Ok s') -> forall s, exists s', foldM f s l = Ok s'.
Proof.
  induction l as [|a l IH]; intros Hf s; cbn [foldM]; [by eexists|]. destruct (Hf s a) as [s' ->]; [by left|]. cbn [bind]. apply IH. intros; apply Hf. by right.
Qed.
Theorem C82_events_defined w o out w' : reachable w -> exec w o = Ok (out, w') -> exists es, op_ev w o out w' = Ok es.
Proof.
  intros Hr H. destruct (reachable_ginv w Hr) as [Hb [He _]]. pose proof (binv_users _ _ Hb) as Hu.
  destruct o as [sg xo|sg a po|sg ad salt orc rate mp|b|dt ds|orc|n|b t u|b r|]; try by eexists.
  - cbn [exec] in H. apply assert_ok in H as [_ H]. apply bind_ok in H as ([o1 x1] & H1 & H). apply Ok_inj in H. injection H as <- <-. cbn [op_ev]. change (w_ext (w <| w_ext := x1 |>)) with x1.
    destruct xo; cbn [ext_ev]; try (destruct o1; by eexists); cbn [x_exec] in H1; unfold ret_unit, ret_z in H1; apply bind_ok in H1 as (y & H2 & H1).
    + apply Ok_inj in H1. injection H1 as _ <-. unfold em_queue_swap in H2. apply assert_ok in H2 as [_ H2]. apply assert_ok in H2 as [_ H2]. apply assert_ok in H2 as [_ H2]. apply bind_ok in H2 as (un & _ & H2). apply Ok_inj in H2 as <-. by eexists.
    + unfold em_cancel_swap in H2. destruct (em_swap (x_em (w_ext w))); [by eexists|done].
    + unfold em_swap_backstop in H2. destruct (em_swap (x_em (w_ext w))); [by eexists|done].
    + unfold b_drop in H2. apply assert_ok in H2 as [_ H2]. apply assert_ok in H2 as [_ H2]. destruct (bs_drop (x_bs (w_ext w))); [by eexists|done].
    + destruct y as [n x2]. apply claim_told in H2 as (es & Hes & _); [|done|done]. by eexists.
  - cbn [exec] in H. apply assert_ok in H as [_ H]. apply bind_ok in H as (p & Hp & H). apply bind_ok in H as ([o1 px] & H1 & H). apply Ok_inj in H. injection H as <- <-. cbn [op_ev]. rewrite Hp. cbn [bind].
    change (w_pools (w <| w_pools := <[a := px_p px]> (w_pools w) |> <| w_ext := px_x px |>)) with (<[a := px_p px]> (w_pools w)). rewrite lookup_insert. cbn [bind unwrap].
    destruct po; cbn [pool_ev]; try (destruct o1; by eexists); unfold p_exec in H1; cbv zeta in H1; apply assert_ok in H1 as [_ H1].
    + apply bind_ok in H1 as ([pos px1] & H1 & H). apply submit_told in H1 as (es & Hes & _). by eexists.
    + unfold on_pool in H1. apply bind_ok in H1 as (p1 & H1 & _). unfold p_bad_debt in H1. cbv zeta in H1. apply assert_ok in H1 as [_ H1]. apply assert_ok in H1 as [_ H1]. apply bind_ok in H1 as ([[[q ch] nup] nbp] & H1 & _).
      unfold debts_ev. cbn [px_p] in H1. revert H1. match goal with |- foldM _ ?s _ = _ -> _ => generalize s end. generalize (@nil Event) at 2. intros l0. generalize (entries (po_liab (get_pos p user))) as en. intros en. revert l0. 
      induction en as [|e en IH]; intros l0 s H1; cbn [foldM] in *; [by eexists|]. apply bind_ok in H1 as (s1 & H1 & H). unfold bad_debt_step in H1. destruct s as [[[? ?] ?] ?]. apply bind_ok in H1 as (x1 & Hx & _). rewrite Hx. cbn [bind]. by eapply IH.
    + destruct o1; try by eexists. unfold ret_z in H1. apply bind_ok in H1 as ([n px1] & H1 & H). apply Ok_inj in H. injection H as <- <-. unfold p_gulp in H1. apply bind_ok in H1 as ([n1 x1] & _ & H1). apply bind_ok in H1 as (p1 & Hd & H1). apply Ok_inj in H1. injection H1 as <- <-.
      cbn [px_p] in *. unfold do_gulp in Hd. apply assert_ok in Hd as [_ Hd]. 
      match goal with |- exists es, bind (foldM ?f ?s0 ?l) _ = _ => assert (exists es, foldM f s0 l = Ok es) as [es Hes]; [apply foldM_defined|rewrite Hes; by eexists] end. intros l0 e Hin. destruct (proj2 (gulp_set _ _ _ _ _ Hd (fst e))) as [ec Hec]; [left; exists (snd e); by destruct e|]. rewrite Hec. by eexists.
Qed.
