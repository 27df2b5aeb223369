(** * The event log accounts for the BLND of the backstop (C88) *)
From Verif Require Import Base Types Token Emitter Factory Backstop PoolReserve PoolUser PoolHealth
  PoolAuction PoolSubmit PoolEmis PoolAdmin World Events Facts XMove Spec FrameFacts PoolFrame PoolCfg PoolAccrue PoolTrace PoolInv AuctionFacts
  PoolSim PoolReq PoolHF PoolOps PoolLiq PoolReach BackMoves BackInv BackEmis PropsEmitter PropsAdmin PropsBackstop PropsBackstop4 PropsPool1 PropsPool2 PropsPool3 PropsPool4 PoolTx PropsPool10 PropsPool11 PropsAdmin3 PropsToken
  PropsBackstop5 PropsBackstop6 PropsBackstop8 PropsBackstop9 PropsBackstop15 PropsEvents1 PropsEvents2 PropsEvents3.
From Verif Require PropsPool6.

(** ** Specification *)
(** what an event says the backstop received (or paid) of its BLND: the emitter's distributions to it, its share of a drop, and the claims of
    pools' users and of its depositors *)
Definition blnd_flow (e : Event) : Z :=
  match e with
  | VDistribute b n => if b =? bs_addr then n else 0
  | VDrop l => sumz (fun p => if p.1 =? bs_addr then p.2 else 0) l
  | VClaim _ _ _ n | VBClaim _ n => - n
  | _ => 0
  end.
Definition blnd_flows (log : list (Z * Event)) : Z := sumz (fun e => blnd_flow e.2) log.
(** transactions that may leave more with the backstop than their events say: BLND sent to it unasked; the last distribution to a backstop that
    is being replaced, which publishes no distribute event; and claims whose money does not leave the backstop *)
Definition unasked (K : Addr) (w : World) (o : Op) : Prop :=
  match o with
  | OExt _ (TMint k to _) | OExt _ (TTransfer k _ to _) | OExt _ (TTransferFrom k _ _ to _) => k = K /\ to = bs_addr
  | OExt _ ESwap => em_backstop (x_em (w_ext w)) = bs_addr
  | OExt _ (BClaim _ _ _ _) => bs_token (x_bs (w_ext w)) = bs_addr
  | OPool _ _ (PSubmit _ _ to _) => to = bs_addr
  | OPool _ p (PClaim _ _ to) => to = bs_addr \/ ps_backstop (pool w p) <> bs_addr \/ ps_blnd (pool w p) <> K
  | _ => False
  end.

(** ** Events without BLND *)
Definition calm (e : Event) : Prop := blnd_flow e = 0.
Lemma flows_calm es : Forall calm es -> sumz blnd_flow es = 0.
Proof. induction 1 as [|e es He _ IH]; [done|]. by rewrite sumz_cons, IH, He. Qed.
Lemma one_calm e es : calm e -> Ok [e] = Ok es -> Forall calm es.
Proof. intros He [= <-]. constructor; [exact He|constructor]. Qed.
Lemma debts_calm self u l liab es : debts_ev self u l liab = Ok es -> Forall calm es.
Proof.
  unfold debts_ev. intros H. eapply all_fold; [|exact H|constructor]. intros l0 e l1 H1 H0. apply bind_ok in H1 as (r & _ & H1). apply Ok_inj in H1 as <-.
  apply Forall_app. split; [done|]. constructor; [done|constructor].
Qed.
Lemma request_calm c self from s q es : request_ev c self from s q = Ok es -> Forall calm es.
Proof.
  unfold request_ev. cbv zeta. intros H.
  assert (forall mk, (forall x n, calm (mk x n)) -> supply_ev (c_now c) s q mk = Ok es -> Forall calm es) as HS.
  { intros mk Hm Hs. unfold supply_ev in Hs. apply bind_ok in Hs as ([r ch] & _ & Hs). apply bind_ok in Hs as (m & _ & Hs). by eapply one_calm. }
  assert (forall h mk, (forall x n, calm (mk x n)) -> withdraw_ev (c_now c) s q h mk = Ok es -> Forall calm es) as HW.
  { intros h mk Hm Hs. unfold withdraw_ev in Hs. apply bind_ok in Hs as ([r ch] & _ & Hs). cbv zeta in Hs. apply bind_ok in Hs as (m & _ & Hs). destruct (_ <? _); [apply bind_ok in Hs as (o & _ & Hs)|]; by eapply one_calm. }
  assert (forall mk, (forall x n, calm (mk x n)) -> borrow_ev (c_now c) s q mk = Ok es -> Forall calm es) as HB.
  { intros mk Hm Hs. unfold borrow_ev in Hs. apply bind_ok in Hs as ([r ch] & _ & Hs). apply bind_ok in Hs as (m & _ & Hs). by eapply one_calm. }
  assert (forall mk, (forall x n, calm (mk x n)) -> repay_ev (c_now c) s q mk = Ok es -> Forall calm es) as HR.
  { intros mk Hm Hs. unfold repay_ev in Hs. apply bind_ok in Hs as ([r ch] & _ & Hs). cbv zeta in Hs. apply bind_ok in Hs as (m & _ & Hs). destruct (_ <? _); [apply bind_ok in Hs as (o & _ & Hs); apply bind_ok in Hs as (o1 & _ & Hs); apply bind_ok in Hs as (o2 & _ & Hs)|]; by eapply one_calm. }
  destruct (rq_type q) as [|k|k]; [|do 4 (try destruct k as [k|k|])|]; try (apply Ok_inj in H as <-; constructor; [done|constructor] || constructor; fail).
  all: try (eapply HS; [|exact H]; done). all: try (eapply HW; [|exact H]; done). all: try (eapply HB; [|exact H]; done). all: try (eapply HR; [|exact H]; done).
  all: try (apply Ok_inj in H as <-; constructor; fail).
  all: try (apply Ok_inj in H as <-; constructor; [done|constructor]; fail).
  - apply bind_ok in H as (e0 & He & H). apply Ok_inj in H as <-. apply Forall_app. split; [|constructor; [done|constructor]].
    unfold fill_bad_debt_ev in He. cbv zeta in He. apply bind_ok in He as (au & _ & He). apply bind_ok in He as ([tf rem] & _ & He). apply bind_ok in He as ([[p1 ch1] bpos] & _ & He). apply bind_ok in He as ([[p2 ch2] fpos] & _ & He).
    apply bind_ok in He as (bt & _ & He). apply bind_ok in He as (lot & _ & He). apply bind_ok in He as (x & _ & He). destruct (bool_decide _); [eapply one_calm; [|exact He]; done|]. apply bind_ok in He as (pd & _ & He).
    destruct (_ <? 3); [|eapply one_calm; [|exact He]; done]. apply bind_ok in He as (es1 & He1 & He). apply Ok_inj in He as <-. constructor; [done|]. by eapply debts_calm.
  - apply bind_ok in H as (e0 & He & H). apply Ok_inj in H as <-. apply Forall_app. split; [|constructor; [done|constructor]].
    unfold fill_interest_ev in He. apply bind_ok in He as (au & _ & He). apply bind_ok in He as ([tf rem] & _ & He). apply bind_ok in He as (bt & _ & He). apply bind_ok in He as (bid & _ & He). eapply one_calm; [|exact He]. done.
Qed.
Lemma requests_calm c self from qs : forall s es, requests_ev c self from s qs = Ok es -> Forall calm es.
Proof.
  induction qs as [|q qs IH]; intros s es H; cbn [requests_ev] in H; [apply Ok_inj in H as <-; constructor|]. apply bind_ok in H as (e & He & H). apply bind_ok in H as (s1 & _ & H). apply bind_ok in H as (es1 & H1 & H). apply Ok_inj in H as <-.
  apply Forall_app. split; [by eapply request_calm|by eapply IH].
Qed.
Lemma pool_calm c self p x o out p' es : (forall f ids t, o <> PClaim f ids t) -> pool_ev c self p x o out p' = Ok es -> Forall calm es.
Proof.
  intros Hn H. destruct o; try (exfalso; eapply Hn; reflexivity); cbn [pool_ev] in H.
  all: try by eapply debts_calm.
  all: try (destruct out; try (apply Ok_inj in H as <-; repeat constructor; fail); fail).
  - unfold submit_ev in H. by eapply requests_calm.
  - destruct out; try (apply Ok_inj in H as <-; constructor; fail). apply bind_ok in H as (e1 & H1 & H). apply Ok_inj in H as <-. apply Forall_app. split; [|by repeat constructor].
    eapply all_fold; [|exact H1|constructor]. intros l0 e0 l1 H2 H0. apply bind_ok in H2 as (r & _ & H2). apply Ok_inj in H2 as <-. apply Forall_app. split; [done|]. by repeat constructor.
Qed.
Lemma claim_flow c x u ps t lp n x' es : b_claim c x u ps t lp = Ok (n, x') -> claim_ev c x u ps t lp = Ok es -> sumz blnd_flow es = - n.
Proof.
  unfold b_claim, claim_ev. intros H E. apply bind_ok in H as (? & _ & H). apply assert_ok in H as [_ H]. apply bind_ok in H as ([[n1 m1] x1] & H1 & H). rewrite H1 in E. cbn [bind] in E.
  destruct (0 <? n1).
  - apply assert_ok in H as [_ H]. cbv zeta in H, E. apply bind_ok in H as (t1 & _ & H). apply bind_ok in H as (t2 & _ & H). apply bind_ok in H as (x2 & _ & H). apply Ok_inj in H. injection H as <- _.
    apply bind_ok in E as (t3 & _ & E). apply bind_ok in E as (t4 & _ & E). apply bind_ok in E as ([es1 x3] & Hf & E). apply Ok_inj in E as <-.
    rewrite sumz_app, sumz_cons, sumz_nil. cbn [blnd_flow]. rewrite flows_calm; [lia|].
    revert Hf. match goal with |- foldM ?g _ _ = _ -> _ => assert (forall l s s', foldM g s l = Ok s' -> Forall calm s.1 -> Forall calm s'.1) as HF end.
    { intros l. induction l as [|p l IH]; intros s s' Hs H0; cbn [foldM] in Hs; [by apply Ok_inj in Hs as <-|]. apply bind_ok in Hs as (s1 & Hs1 & Hs). eapply IH; [exact Hs|]. destruct s as [l0 y0]. unfold claim_dep_ev in Hs1.
      apply bind_ok in Hs1 as (a & _ & Hs1). apply bind_ok in Hs1 as (dep & _ & Hs1). apply bind_ok in Hs1 as (sh & _ & Hs1). apply bind_ok in Hs1 as (y & _ & Hs1). apply Ok_inj in Hs1 as <-. cbn [fst]. apply Forall_app. split; [done|]. constructor; [done|constructor]. }
    intros Hf. by apply (HF _ _ (es1, x3)) in Hf; [|constructor].
  - apply Ok_inj in H. injection H as <- _. apply Ok_inj in E as <-. rewrite sumz_cons, sumz_nil. cbn [blnd_flow]. lia.
Qed.
Lemma ext_calm c x o out x' es : ext_ev c x o out x' = Ok es ->
  match o with EDistribute | EDrop _ | BDrop | BClaim _ _ _ _ => True | _ => Forall calm es end.
Proof.
  assert (forall e, calm e -> Ok [e] = Ok es -> Forall calm es) as H1 by (intros e He [= <-]; constructor; [exact He|constructor]).
  intros H. destruct o; cbn [ext_ev] in H; try exact I; try (eapply H1; [|exact H]; done); try (apply Ok_inj in H as <-; constructor; fail).
  all: try (apply bind_ok in H as (s & _ & H); eapply H1; [|exact H]; done).
  all: destruct out; try (eapply H1; [|exact H]; done); apply Ok_inj in H as <-; constructor.
Qed.

(** ** Tokens *)
Lemma move_bb K x k f to n t : tok_move (x_tok x) k f to n = Ok t -> f <> bs_addr \/ k <> K ->
  bb K x <= bb K (x <| x_tok := t |>) /\ (to <> bs_addr \/ k <> K -> bb K (x <| x_tok := t |>) = bb K x).
Proof.
  intros H Hf. apply tok_move_spec in H as (Hn & _ & _ & Hb & _). unfold bb. change (x_tok (x <| x_tok := t |>)) with t. rewrite Hb. split; [|intros Ht]; repeat case_bool_decide; destruct_and?; try lia; tauto.
Qed.
Lemma draw_blnd K c x p n t x' : b_draw c x p n t = Ok x' -> good K x -> bb K x' = bb K x /\ fixed x x'.
Proof.
  intros H Hg. assert (bs_init (x_bs x) = true) as Hi by (unfold b_draw in H; mon H; done). destruct (Hg Hi) as [_ Hne].
  split; [|unfold b_draw in H; mon H; done]. apply PropsPool6.draw_spec in H as (_ & _ & _ & _ & _ & _ & Hb). unfold bb. rewrite Hb. rewrite !bool_decide_eq_false_2 by tauto. lia.
Qed.
Lemma donate_blnd K c x f p n x' : b_donate c x f p n = Ok x' -> good K x -> bb K x' = bb K x /\ fixed x x'.
Proof.
  intros H Hg. assert (bs_init (x_bs x) = true) as Hi by (unfold b_donate in H; mon H; done). destruct (Hg Hi) as [_ Hne].
  split; [|unfold b_donate in H; mon H; done]. apply PropsPool6.donate_spec in H as (_ & _ & _ & _ & _ & _ & Hb). unfold bb. rewrite Hb. rewrite !bool_decide_eq_false_2 by tauto. lia.
Qed.
Lemma claim_bb K c x u ps t lp n x' : b_claim c x u ps t lp = Ok (n, x') -> emis_nonneg x -> users_nonneg x -> good K x ->
  0 <= n /\ bb K x - n <= bb K x' /\ (bs_token (x_bs x) <> bs_addr -> bb K x' = bb K x - n).
Proof.
  intros H He Hu Hg. unfold b_claim in H. apply bind_ok in H as (? & _ & H). apply assert_ok in H as [_ H]. apply bind_ok in H as ([[cl cs] x1] & E1 & H).
  pose proof (claim_loop_fields _ _ _ _ _ E1) as (_ & Ei & Etk & Eb & Ht). cbn [snd] in Ei, Etk, Eb, Ht.
  apply (claim_loop _ _ _ []) in E1 as (_ & _ & Hn0 & _); [|done|done|set_solver|set_solver|done].
  destruct (0 <? cl) eqn:E0; [|injection H as <- <-; unfold bb; rewrite Ht; apply Z.ltb_ge in E0; split; [done|]; split; [lia|intros _; lia]].
  apply assert_ok in H as [Hin H]. apply bind_ok in H as (t1 & M1 & H). apply bind_ok in H as (t2 & M2 & H). apply bind_ok in H as (x2 & D & H). injection H as <- <-.
  apply claim_deps_tok in D. simpl in D. unfold bb. rewrite D. rewrite Ht in M1. rewrite Ei in Hin. destruct (Hg Hin) as [Hb1 Hb2].
  apply mint_spec in M2 as (Hlp & A2 & _ & B2). apply tok_move_spec in M1 as (_ & A1 & _ & B1 & _). split; [lia|]. rewrite Eb in *. rewrite Etk in *.
  rewrite B2, B1. split; [|intros Hnb]; repeat case_bool_decide; destruct_and?; try lia; try (exfalso; tauto).
Qed.
Lemma mints_bb K l : forall x x', foldM (fun x p => em_mint x p.1 p.2) x l = Ok x' -> em_blnd (x_em x) = K ->
  bb K x' = bb K x + sumz (fun p => if p.1 =? bs_addr then p.2 else 0) l.
Proof.
  induction l as [|e l IH]; intros x x' H Hk; cbn [foldM] in H; [apply Ok_inj in H as ->; rewrite sumz_nil; lia|]. apply bind_ok in H as (y & H1 & H).
  apply em_mint_spec in H1 as (_ & He & _ & Hb). apply IH in H; [|congruence]. rewrite H, sumz_cons. unfold bb. rewrite Hb. destruct (Z.eqb_spec e.1 bs_addr); case_bool_decide; destruct_and?; try lia; tauto.
Qed.
Lemma drop_bb K c x l x' : em_drop c x l = Ok x' -> (em_init (x_em x) = true -> em_blnd (x_em x) = K) -> bb K x' = bb K x + sumz (fun p => if p.1 =? bs_addr then p.2 else 0) l.
Proof.
  unfold em_drop. intros H Hk. apply assert_ok in H as [Hi H]. cbv zeta in H. apply bind_ok in H as (? & _ & H). apply assert_ok in H as [_ H]. apply bind_ok in H as (? & _ & H). apply assert_ok in H as [_ H].
  apply bind_ok in H as (y & H1 & H). apply Ok_inj in H as <-. exact (mints_bb _ _ _ _ H1 (Hk Hi)).
Qed.
Lemma distribute_bb K c x b n x' : em_execute_distribute c x b = Ok (n, x') -> em_blnd (x_em x) = K -> 0 <= n /\ bb K x' = bb K x + if b =? bs_addr then n else 0.
Proof.
  unfold em_execute_distribute. intros H Hk. apply bind_ok in H as (? & _ & H). apply bind_ok in H as (? & _ & H). apply bind_ok in H as (m & _ & H). cbv zeta in H. apply bind_ok in H as (y & H1 & H). apply Ok_inj in H. injection H as -> ->.
  apply em_mint_spec in H1 as (Hn & _ & _ & Hb). split; [done|]. unfold bb. rewrite Hb. unfold set_em. cbn. rewrite Hk. destruct (Z.eqb_spec b bs_addr); case_bool_decide; destruct_and?; try lia; tauto.
Qed.
Lemma transfer_all_ge c f to t m t' tok v : transfer_all c f to t m = Ok t' -> f <> v -> balance t tok v <= balance t' tok v.
Proof.
  unfold transfer_all. intros H Hf. revert H. apply (foldM_rel (fun t t' => balance t tok v <= balance t' tok v)); [intros; lia|intros; lia|]. intros s [k n] s' _ H. cbn [fst snd] in H. apply transfer_move in H as [_ H]. apply tok_move_spec in H as (Hn & _ & _ & Hb & _).
  rewrite Hb. repeat case_bool_decide; destruct_and?; try lia; congruence.
Qed.
Lemma burns_bs self ch m x : x_bs (log_burns self ch m x) = x_bs x.
Proof. unfold log_burns. induction (entries m) as [|e l IH]; [done|]. simpl. done. Qed.
Lemma fixed_refl x : fixed x x. Proof. done. Qed.

Lemma requests_blnd K c self from qs : self < 0 -> from > 3 -> forall s s', foldM (do_request c self from) s qs = Ok s' -> good K (lo_x s) -> bb K (lo_x s') = bb K (lo_x s).
Proof.
  intros Hs Hf. assert (self <> bs_addr /\ from <> bs_addr) as [Hsb Hfb] by (unfold bs_addr; lia).
  induction qs as [|q qs IH]; cbn [foldM]; intros s s' H Hg; [by apply Ok_inj in H as <-|]. apply bind_ok in H as (s1 & H1 & H).
  assert (bb K (lo_x s1) = bb K (lo_x s) /\ good K (lo_x s1)) as [Hb Hg1]; [|rewrite (IH _ _ H Hg1); exact Hb]. clear IH H.
  unfold do_request in H1. cbv zeta in H1. apply bind_ok in H1 as (? & _ & H1). apply bind_ok in H1 as (? & _ & H1).
  assert (forall t chk, do_fill c self from t chk s q = Ok s1 -> t = 0 \/ t = 1 \/ t = 2 -> bb K (lo_x s1) = bb K (lo_x s) /\ good K (lo_x s1)) as HF.
  { clear H1. intros t chk H Ht. unfold do_fill in H. apply bind_ok in H as ([[[p ch] pos] x2] & Hfi & H). apply Ok_inj in H as <-. cbn [lo_x].
    unfold fill in Hfi. apply assert_ok in Hfi as [_ Hfi]. apply bind_ok in Hfi as (au & Hau & Hfi). apply bind_ok in Hfi as ([tf rem] & Hsc & Hfi).
    apply bind_ok in Hfi as ([[[p1 ch1] pos1] x3] & Hk & Hfi). cbv zeta in Hfi. assert (x3 = x2) as -> by (apply Ok_inj in Hfi; by injection Hfi). clear Hfi.
    destruct Ht as [->|[->| ->]]; cbn [Z.eqb Pos.eqb] in Hk; cbv beta iota in Hk.
    - apply bind_ok in Hk as (s2 & _ & Hk). apply Ok_inj in Hk. by injection Hk as _ <-.
    - unfold fill_bad_debt in Hk. cbv zeta in Hk. apply assert_ok in Hk as [_ Hk]. apply bind_ok in Hk as ([[p2 ch2] bpos] & _ & Hk). apply bind_ok in Hk as ([[p3 ch3] fpos] & _ & Hk).
      apply bind_ok in Hk as (btok & _ & Hk). apply bind_ok in Hk as (lot & _ & Hk). apply bind_ok in Hk as (x4 & Hd & Hk). apply (draw_blnd K) in Hd as [Hd Hd']; [|done]. rewrite <- Hd. apply (good_fixed K _ _ Hd') in Hg.
      destruct (bool_decide (po_liab bpos = ∅)); [apply Ok_inj in Hk; by injection Hk as _ _ _ <-|]. apply bind_ok in Hk as (pd & _ & Hk). destruct (threshold pd <? 3).
      + apply bind_ok in Hk as (m & _ & Hk). apply bind_ok in Hk as ([[p4 ch4] bpos4] & _ & Hk). apply Ok_inj in Hk. injection Hk as _ _ _ <-. unfold bb. rewrite burns_tok. split; [done|].
        eapply good_fixed; [|exact Hg]. unfold fixed. by rewrite burns_bs.
      + apply Ok_inj in Hk. by injection Hk as _ _ _ <-.
    - apply bind_ok in Hk as ([ch2 x4] & Hk & Hx). apply Ok_inj in Hx. injection Hx as _ _ _ <-. unfold fill_interest in Hk. apply assert_ok in Hk as [_ Hk].
      apply bind_ok in Hk as (btok & _ & Hk). apply bind_ok in Hk as (bid & _ & Hk). apply bind_ok in Hk as (x5 & Hd & Hk). apply (donate_blnd K) in Hd as [Hd Hd']; [|done]. rewrite <- Hd. apply (good_fixed K _ _ Hd') in Hg.
      apply (foldM_ok_frame (fun a b => balance (x_tok b.2) K bs_addr = balance (x_tok a.2) K bs_addr /\ x_bs b.2 = x_bs a.2)) in Hk; [destruct Hk as [Hk1 Hk2]; cbn [snd] in *; split; [exact Hk1|]; eapply good_fixed; [|exact Hg]; unfold fixed; by rewrite Hk2|done|intros ? ? ? [? ?] [? ?]; split; congruence|].
      intros [ch5 x6] e s6 H6. unfold interest_fill_one in H6. apply bind_ok in H6 as ([r chr] & _ & H6). apply bind_ok in H6 as (cr & _ & H6). cbv zeta in H6. apply bind_ok in H6 as (t & Ht & H6). apply Ok_inj in H6 as <-. cbn [snd].
      change (x_tok (x6 <| x_tok := t |>)) with t. split; [|done]. apply transfer_move in Ht as [_ Ht]. eapply move_other; [exact Hsb|exact Hfb|exact Ht]. }
  assert (forall a f n, plain_step (c_now c) from s s1 a f n -> bb K (lo_x s1) = bb K (lo_x s) /\ good K (lo_x s1)) as HP by (intros a f n (? & ? & ? & _ & _ & -> & _); done).
  destruct (rq_type q) as [|k|k]; [|do 4 (try (destruct k as [k|k|]; try discriminate H1))|discriminate H1].
  all: first
    [ apply (supply_step _ _ _ _ _ (VSupply self (rq_addr q) from)) in H1 as (n & _ & Hp); exact (HP _ _ _ Hp)
    | apply (supply_coll_step _ _ _ _ _ (VSupplyColl self (rq_addr q) from)) in H1 as (n & _ & Hp); exact (HP _ _ _ Hp)
    | apply (withdraw_step _ _ _ _ _ (VWithdraw self (rq_addr q) from)) in H1 as (amt & n & _ & Hp); exact (HP _ _ _ Hp)
    | apply (withdraw_coll_step _ _ _ _ _ (VWithdrawColl self (rq_addr q) from)) in H1 as (amt & n & _ & Hp); exact (HP _ _ _ Hp)
    | apply (borrow_step _ _ _ _ _ (VBorrow self (rq_addr q) from)) in H1 as (n & _ & Hp); exact (HP _ _ _ Hp)
    | apply (repay_step _ _ _ _ _ (VRepay self (rq_addr q) from)) in H1 as (amt & n & _ & Hp); exact (HP _ _ _ Hp)
    | apply (HF 0 true H1); auto | apply (HF 1 true H1); auto | apply (HF 2 false H1); auto
    | idtac ].
  unfold do_delete in H1. apply bind_ok in H1 as (p1 & _ & H1). by apply Ok_inj in H1 as <-.
Qed.

Lemma deployed_neg w p : reachable w -> p ∈ fa_deployed (x_fac (w_ext w)) -> p < 0.
Proof.
  intros (w0 & l & Hi & ->) Hp. assert (fa_is_pool (w_ext (run w0 l)) p = true) as Hf by (unfold fa_is_pool; by rewrite bool_decide_eq_true).
  apply C52_registry_exact in Hf as (l1 & sg & ad & sa & orc & ra & mp & l2 & w' & _ & H); [|done].
  cbn [exec] in H. apply assert_ok in H as [_ H]. apply bind_ok in H as (v & _ & H). destruct (w_pools _ !! _); [done|]. mon H. apply dep_addr_neg.
Qed.
(** nobody that may sign may spend the backstop's tokens *)
Lemma no_spender w sp tok : reachable w -> 3 < sp -> gr tok (w_ext w) sp = 0.
Proof.
  intros Hr Hs. assert (~ registered w sp) as Hn by (intros [_ Hp]; apply deployed_neg in Hp; [lia|done]).
  destruct (C87_only_deployed_pools w sp Hr Hn) as (_ & _ & _ & _ & _ & _ & H). specialize (H tok). unfold granted, gr in *. by destruct (tk_allow _ !! _) as [[? ?]|].
Qed.
Definition kept_up (K : Addr) (w : World) (o : Op) (d : Z) (x' : Ext) : Prop :=
  bb K (w_ext w) + d <= bb K x' /\ (~ unasked K w o -> bb K x' = bb K (w_ext w) + d).
Lemma kept_same K w o es x' : Forall calm es -> bb K x' = bb K (w_ext w) -> kept_up K w o (sumz blnd_flow es) x'.
Proof. intros Hc H. unfold kept_up. rewrite (flows_calm _ Hc), H. split; [lia|intros _; lia]. Qed.
Lemma kept_eq K w o d x' : bb K x' = bb K (w_ext w) + d -> kept_up K w o d x'.
Proof. intros H. unfold kept_up. rewrite H. split; [lia|done]. Qed.
Lemma ext_kept K w sg o out x' es : reachable w -> forallb ok_signer sg = true -> x_exec (ctx w sg) (w_ext w) o = Ok (out, x') ->
  (em_init (emitter w) = true -> em_blnd (emitter w) = K) -> good K (w_ext w) -> ext_ev (ctx w sg) (w_ext w) o out x' = Ok es ->
  kept_up K w (OExt sg o) (sumz blnd_flow es) x'.
Proof.
  intros Hr Hsg0 E Hem Hg Hes. pose proof (reachable_ginv w Hr) as [Hb He].
  assert (forall a, mem_addr a sg = true -> 3 < a) as Hsg.
  { intros a Ha. apply mem_addr_elem in Ha. by eapply signer_pos. }
  assert (forall a, mem_addr a sg = true -> a <> bs_addr) as Hne by (intros a Ha; apply Hsg in Ha; unfold bs_addr; lia).
  assert (forall t k f to n t', transfer (ctx w sg) t k f to n = Ok t' -> exists H : f <> bs_addr, tok_move t k f to n = Ok t') as Htr.
  { intros t k f to n t' H. apply transfer_move in H as [Ha H]. simpl in Ha. apply Hne in Ha. by exists Ha. }
  pose proof (ext_calm _ _ _ _ _ _ Hes) as Hc.
  destruct o; simpl in E; unfold ret_unit, ret_z in E; mon E; cbn beta iota in Hc.
  - apply kept_same; [exact Hc|]. unfold em_initialize in E0. by mon E0.
  - cbn [ext_ev] in Hes. apply Ok_inj in Hes as <-. rewrite sumz_cons, sumz_nil. cbn [blnd_flow]. rewrite Z.add_0_r. apply kept_eq.
    unfold em_distribute in E0. apply assert_ok in E0 as [Hi E0]. by apply (distribute_bb K) in E0 as [_ ->]; [|by apply Hem].
  - apply kept_same; [exact Hc|]. unfold em_queue_swap in E0. by mon E0.
  - apply kept_same; [exact Hc|]. unfold em_cancel_swap in E0. by mon E0.
  - assert (em_init (emitter w) = true) as Hi.
    { apply swap_init; [done|]. unfold em_swap_backstop in E0. apply bind_ok in E0 as (sw & Hs & _). unfold emitter. destruct (em_swap _); [done|]. done. }
    unfold em_swap_backstop in E0. apply bind_ok in E0 as (sw & Hs & E0). apply assert_ok in E0 as [_ E0]. cbv zeta in E0. apply assert_ok in E0 as [_ E0]. apply bind_ok in E0 as ([n y] & H1 & E0). apply Ok_inj in E0 as <-.
    apply (distribute_bb K) in H1 as [Hn H1]; [|by apply Hem]. unfold kept_up. rewrite (flows_calm _ Hc). repeat match goal with |- context [bb K (set_em y ?f)] => change (bb K (set_em y f)) with (bb K y) end. rewrite H1.
    destruct (Z.eqb_spec (em_backstop (x_em (w_ext w))) bs_addr) as [Hbs|Hbs]; (split; [lia|]); intros Hu; [|lia]. by exfalso; apply Hu.
  - cbn [ext_ev] in Hes. apply Ok_inj in Hes as <-. rewrite sumz_cons, sumz_nil. cbn [blnd_flow]. rewrite Z.add_0_r. apply kept_eq. by apply (drop_bb K) in E0.
  - apply kept_same; [exact Hc|]. unfold fa_initialize in E0. by mon E0.
  - apply kept_same; [exact Hc|]. unfold b_initialize in E0. by mon E0.
  - apply kept_same; [exact Hc|]. unfold b_deposit in E0. mon E0.
    match goal with E : b_emissions _ _ _ _ _ _ _ = Ok _ |- _ => apply emis_frame_b in E as (? & ? & ->) end. simpl in *.
    match goal with E : transfer _ _ _ _ _ _ = Ok _ |- _ => apply Htr in E as [Hf E]; apply tok_move_spec in E as (_ & _ & _ & Hbal & _) end. unfold bb. simpl. rewrite Hbal.
    rewrite !bool_decide_eq_false_2; [lia| |tauto]. intros [H1 _]. simpl in *. by apply Hg in H1.
  - apply kept_same; [exact Hc|]. unfold b_queue in E0. mon E0.
    match goal with E : b_emissions _ _ _ _ _ _ _ = Ok _ |- _ => by apply emis_frame_b in E as (? & ? & ->) end.
  - apply kept_same; [exact Hc|]. unfold b_dequeue in E0. mon E0.
    match goal with E : b_emissions _ _ _ _ _ _ _ = Ok _ |- _ => by apply emis_frame_b in E as (? & ? & ->) end.
  - apply kept_same; [exact Hc|]. unfold b_withdraw in E0. mon E0. simpl. match goal with E : transfer _ _ _ _ _ _ = Ok _ |- _ => apply transfer_move in E as [_ E]; apply tok_move_spec in E as (_ & _ & _ & Hbal & _) end.
    simpl in *. assert (bs_token (x_bs (w_ext w)) <> K) as Hk by (by apply Hg). unfold bb. simpl. rewrite Hbal, !bool_decide_eq_false_2 by tauto. lia.
  - apply kept_same; [exact Hc|]. by eapply draw_blnd.
  - apply kept_same; [exact Hc|]. by eapply donate_blnd.
  - apply kept_same; [exact Hc|]. unfold b_update_tkn_val in E0. by mon E0.
  - cbn [ext_ev] in Hes. apply bind_ok in Hes as (l & Hl & Hes). apply Ok_inj in Hes as <-. rewrite sumz_cons, sumz_nil. cbn [blnd_flow]. rewrite Z.add_0_r. apply kept_eq.
    unfold b_drop in E0. mon E0. match goal with E : em_drop _ _ ?l1 = Ok _ |- _ => assert (l1 = l) as ->; [|by apply (drop_bb K) in E] end. unfold unwrap_or, unwrap in *. by destruct (bs_drop _); simplify_eq.
  - apply kept_same; [exact Hc|]. unfold b_add_reward in E0. mon E0. destruct (_ <? _); by mon E0.
  - apply kept_same; [exact Hc|]. unfold bb. by rewrite (gulp_tok _ _ _ _ E0).
  - apply kept_same; [exact Hc|]. unfold b_gulp_pool in E0. mon E0. simpl. by eapply approve_bal.
  - cbn [ext_ev] in Hes. rewrite (claim_flow _ _ _ _ _ _ _ _ _ E0 Hes). destruct (claim_bb K _ _ _ _ _ _ _ _ E0) as (N1 & N2 & N3); [apply He|by eapply binv_users|done|]. split; [lia|]. intros Hu. rewrite N3; [lia|exact Hu].
  - unfold kept_up. rewrite (flows_calm _ Hc). apply Htr in E0 as [Hf E0]. destruct (move_bb K (w_ext w) _ _ _ _ _ E0 (or_introl Hf)) as [B1 B2]. split; [lia|]. intros Hu. cbn [unasked] in Hu. rewrite B2; [lia|].
    destruct (decide (to = bs_addr)); [|by left]. right. tauto.
  - apply kept_same; [exact Hc|]. by eapply approve_bal.
  - unfold kept_up. rewrite (flows_calm _ Hc). apply transfer_from_spec in E0 as (Ha & Hs & _ & _ & t1 & Hbt & Hm). simpl in Hs. apply Hsg in Hs.
    apply tok_move_spec in Hm as (Hn & _ & _ & Hbal & _). specialize (Hbal K bs_addr).
    assert (balance t1 K bs_addr = bb K (w_ext w)) as Hb1 by (unfold bb, balance; by rewrite Hbt). rewrite Hb1 in Hbal.
    match type of Hbal with balance ?t' _ _ = _ => change (balance t' K bs_addr) with (bb K (w_ext w <| x_tok := t' |>)) in Hbal end. rewrite Hbal. clear Hbal Hbt Hb1.
    destruct (decide (tok = K /\ from = bs_addr)) as [[-> ->]|Hf].
    + assert (amt = 0) as ->.
      { pose proof (no_spender w _ K Hr Hs) as Hz. unfold gr in Hz. unfold allowance in Ha. destruct (tk_allow _ !! _) as [[a0 l0]|]; cbn in Hz, Ha; [|lia]. rewrite Hz in Ha. destruct (_ <? _); lia. }
      repeat case_bool_decide; (split; [lia|intros _; lia]).
    + rewrite (bool_decide_eq_false_2 _ Hf). case_bool_decide as Hx; (split; [lia|]); intros Hu; [|lia]. exfalso. apply Hu. cbn [unasked]. destruct Hx as [-> ->]. by split.
  - apply kept_same; [exact Hc|]. unfold burn in E0. mon E0. apply need_auth_ok in E. simpl in E. apply Hne in E. unfold bb, balance, set_balance. simpl. rewrite lookup_insert_ne; [done|]. intros [= _ ?]. congruence.
  - unfold kept_up. rewrite (flows_calm _ Hc). apply mint_spec in E0 as (Hn & _ & _ & Hbal). unfold bb. simpl. rewrite Hbal. case_bool_decide as Hx; (split; [lia|]); intros Hu; [|lia]. exfalso. apply Hu. cbn [unasked]. tauto.
Qed.
Lemma pool_kept K w sg a po out w' es : reachable w -> exec w (OPool sg a po) = Ok (out, w') -> good K (w_ext w) -> op_ev w (OPool sg a po) out w' = Ok es ->
  kept_up K w (OPool sg a po) (sumz blnd_flow es) (w_ext w').
Proof.
  intros Hr H Hg Hes. pose proof H as H'. cbn [exec] in H'. apply assert_ok in H' as [G H']. apply andb_prop in G as [G _]. apply bind_ok in H' as (p & Hp & H'). apply bind_ok in H' as ([o1 px] & Hx & H'). apply Ok_inj in H'. injection H' as -> Hw.
  assert (a < 0) as Ha by (destruct (w_pools w !! a) eqn:E; [by eapply pools_neg|done]). assert (a <> bs_addr) as Hab by (unfold bs_addr; lia).
  assert (p = pool w a) as -> by (unfold pool; destruct (w_pools w !! a); [by injection Hp as ->|done]).
  cbn [op_ev] in Hes. rewrite Hp in Hes. cbn [bind unwrap] in Hes. apply bind_ok in Hes as (p' & _ & Hes).
  assert (forall u, c_auth (ctx w sg) u = true -> 3 < u) as Hc by (intros u Hu; simpl in Hu; apply mem_addr_elem in Hu; by eapply signer_pos).
  assert (w_ext w' = px_x px) as Hwx by (by rewrite <- Hw). rewrite Hwx in *. clear Hw.
  destruct po as [| | | | | |f sp to qs| | | | | |f ids to| | |] eqn:Epo; try (
    apply kept_same; [eapply pool_calm; [|exact Hes]; intros; discriminate|]; simpl in Hx; unfold on_pool, ret_z in Hx; mon Hx; simpl; try done; fail).
  - unfold kept_up. rewrite (flows_calm es); [|eapply pool_calm; [|exact Hes]; intros; discriminate].
    cbn [p_exec] in Hx. unfold p_exec in Hx. cbv zeta in Hx. apply assert_ok in Hx as [_ Hx]. apply bind_ok in Hx as ([pos px1] & Hx & H1). apply Ok_inj in H1. injection H1 as _ ->.
    unfold p_submit in Hx. apply bind_ok in Hx as (u1 & A1 & Hx). apply bind_ok in Hx as (u2 & A2 & Hx). apply assert_ok in Hx as [_ Hx]. cbv zeta in Hx.
    apply need_auth_ok, Hc in A1. assert (3 < f) as Hf.
    { destruct (Z.eqb_spec f sp) as [->|]; [done|]. by apply need_auth_ok, Hc in A2. }
    apply bind_ok in Hx as (s & Hb & Hx). apply bind_ok in Hx as (ch & _ & Hx). apply bind_ok in Hx as (t1 & Ht1 & Hx). apply bind_ok in Hx as (p1 & _ & Hx). apply bind_ok in Hx as (t2 & Ht2 & Hx). apply Ok_inj in Hx. injection Hx as _ <-.
    unfold build_actions in Hb. apply bind_ok in Hb as (s' & Hb & Hx). apply bind_ok in Hx as (? & _ & Hx). apply Ok_inj in Hx as ->.
    apply (requests_blnd K) in Hb; [|done|lia|done]. cbn [lo_x px_x] in Hb. cbn [px_x].
    assert (sp <> bs_addr) as Hsb by (unfold bs_addr; lia).
    pose proof (transfer_all_ge _ _ _ _ _ _ K bs_addr Ht1 Hsb) as G1. pose proof (transfer_all_ge _ _ _ _ _ _ K bs_addr Ht2 Hab) as G2.
    pose proof (transfer_all_spec _ _ _ _ _ _ Ht1 K bs_addr) as E1. pose proof (transfer_all_spec _ _ _ _ _ _ Ht2 K bs_addr) as E2.
    unfold bb in *. change (x_tok (lo_x s <| x_tok := t2 |>)) with t2. split; [lia|]. intros Hu. cbn [unasked] in Hu.
    rewrite (proj2 (Z.eqb_neq bs_addr a)), (proj2 (Z.eqb_neq bs_addr to)) in E2 by congruence. rewrite (proj2 (Z.eqb_neq bs_addr a)), (proj2 (Z.eqb_neq bs_addr sp)) in E1 by congruence. lia.
  - apply kept_same; [eapply pool_calm; [|exact Hes]; intros; discriminate|]. simpl in Hx. unfold on_pool, ret_z in Hx. mon Hx. simpl. unfold p_gulp in E. mon E. simpl. unfold to_backstop in *. mon E0. unfold b_gulp_pool in E0. mon E0. simpl. by eapply approve_bal.
  - assert (ps_init (pool w a) = true) as Hi by (simpl in Hx; by apply assert_ok in Hx as [Hi _]).
    destruct (C34_claim_exact _ _ _ _ _ _ _ _ Hr Hi H) as (_ & -> & Hn & Hbal & _). cbv zeta in Hn, Hbal. set (amt := sumz _ _) in *.
    cbn [pool_ev] in Hes. apply Ok_inj in Hes as <-. rewrite sumz_cons, sumz_nil. cbn [blnd_flow]. rewrite Hwx in Hbal. specialize (Hbal K bs_addr). unfold kept_up, bb. rewrite Hbal.
    split; [repeat case_bool_decide; lia|]. intros Hu. cbn [unasked] in Hu.
    assert (ps_backstop (pool w a) = bs_addr /\ ps_blnd (pool w a) = K /\ to <> bs_addr) as (-> & -> & Ht).
    { destruct (decide (to = bs_addr)); [exfalso; tauto|]. destruct (decide (ps_backstop (pool w a) = bs_addr)); [|exfalso; tauto]. destruct (decide (ps_blnd (pool w a) = K)); [done|exfalso; tauto]. }
    rewrite bool_decide_eq_true_2 by done. rewrite bool_decide_eq_false_2 by (intros [_ ?]; congruence). lia.
Qed.
Lemma exec_blnd K w o out w' : reachable w -> exec w o = Ok (out, w') -> (em_init (emitter w) = true -> em_blnd (emitter w) = K) -> good K (w_ext w) ->
  kept_up K w o (sumz blnd_flow (events w o)) (w_ext w').
Proof.
  intros Hr H Hem Hg. destruct (C82_events_defined _ _ _ _ Hr H) as [es Hes]. unfold events. rewrite H, Hes. destruct o as [sg xo|sg a po|sg ad salt orc rate mp|b0|dt ds|orc|n|b0 t u|b0 r|].
  - pose proof H as H'. cbn [exec] in H'. apply assert_ok in H' as [G H']. apply andb_prop in G as [G _]. apply bind_ok in H' as ([o1 x1] & Hx & H'). apply Ok_inj in H'. injection H' as <- <-. by eapply ext_kept.
  - by eapply pool_kept.
  - cbn [op_ev] in Hes. apply Ok_inj in Hes as <-. apply kept_same; [by repeat constructor|]. unfold exec in H. mon H. destruct (w_pools w !! _); [done|]. by mon H.
  - cbn [op_ev] in Hes. apply Ok_inj in Hes as <-. apply kept_same; [constructor|]. unfold exec in H. mon H. destruct (w_pools w !! _); [done|]. by mon H.
  - cbn [op_ev] in Hes. apply Ok_inj in Hes as <-. apply kept_same; [constructor|]. unfold exec in H. by mon H.
  - cbn [op_ev] in Hes. apply Ok_inj in Hes as <-. apply kept_same; [constructor|]. unfold exec in H. by mon H.
  - cbn [op_ev] in Hes. apply Ok_inj in Hes as <-. apply kept_same; [constructor|]. unfold exec in H. by mon H.
  - cbn [op_ev] in Hes. apply Ok_inj in Hes as <-. apply kept_same; [constructor|]. unfold exec in H. by mon H.
  - cbn [op_ev] in Hes. apply Ok_inj in Hes as <-. apply kept_same; [constructor|]. unfold exec in H. by mon H.
  - cbn [op_ev] in Hes. apply Ok_inj in Hes as <-. apply kept_same; [constructor|]. unfold exec in H. by mon H.
Qed.
Lemma flows_map s es : blnd_flows (map (pair s) es) = sumz blnd_flow es.
Proof. unfold blnd_flows. induction es as [|e es IH]; [done|]. cbn [map]. by rewrite !sumz_cons, IH. Qed.
Lemma log_blnd K l : forall w, reachable w -> (em_init (emitter (run w l)) = true -> em_blnd (emitter (run w l)) = K) -> good K (w_ext (run w l)) ->
  bb K (w_ext w) + blnd_flows (event_log w l) <= bb K (w_ext (run w l)) /\
  ((forall l1 o l2, l = l1 ++ o :: l2 -> ~ unasked K (run w l1) o) -> bb K (w_ext (run w l)) = bb K (w_ext w) + blnd_flows (event_log w l)).
Proof.
  induction l as [|o l IH]; intros w Hr Hem Hg; [cbn [event_log]; unfold blnd_flows; rewrite sumz_nil; change (run w []) with w; split; [lia|intros _; lia]|].
  destruct (C61_initialized_once w (o :: l)) as (C1 & _ & C2 & _). cbv zeta in C1, C2.
  assert (em_init (emitter w) = true -> em_blnd (emitter w) = K) as Hem0. { intros Hx. destruct (C1 Hx) as [C3 C4]. unfold emitter in *. rewrite <- C4. by apply Hem. }
  assert (good K (w_ext w)) as Hg0. { intros Hx. destruct (C2 Hx) as (C3 & C4 & C5 & _). destruct (Hg C3) as [C6 C7]. split; congruence. }
  clear C1 C2. cbn [event_log]. change (map (fun e => (w_seq w, e)) (events w o)) with (map (pair (w_seq w)) (events w o)). change (run w (o :: l)) with (run (step w o) l) in *.
  unfold blnd_flows at 1 2. rewrite !sumz_app. fold (blnd_flows (map (pair (w_seq w)) (events w o))) (blnd_flows (event_log (step w o) l)). rewrite flows_map.
  assert (kept_up K w o (sumz blnd_flow (events w o)) (w_ext (step w o))) as [S1 S2].
  { unfold step. destruct (exec w o) as [[out w']|e] eqn:E; [by eapply exec_blnd|]. unfold events. rewrite E. apply kept_same; [constructor|done]. }
  destruct (IH (step w o) (reachable_run w [o] Hr) Hem Hg) as [I1 I2]. split; [lia|]. intros Hu. rewrite I2, S2; [lia|by apply (Hu [] o l)|].
  intros l1 o' l2 ->. by apply (Hu (o :: l1) o' l2).
Qed.

(** ** C88: what the backstop holds in BLND moves exactly as the events say, plus whatever reaches it unasked; the emitter's distribution to a
    backstop that is being replaced is money without an event. *)
Theorem C88_blnd_follows_events w l : reachable w ->
  let blnd := bs_blnd (x_bs (w_ext (run w l))) in
  bs_init (x_bs (w_ext (run w l))) = true -> em_blnd (emitter (run w l)) = blnd -> bs_token (x_bs (w_ext (run w l))) <> blnd ->
  let d := blnd_flows (event_log w l) in
  held w blnd bs_addr + d <= held (run w l) blnd bs_addr /\
  ((forall l1 o l2, l = l1 ++ o :: l2 -> ~ unasked blnd (run w l1) o) -> held (run w l) blnd bs_addr = held w blnd bs_addr + d).
Proof. intros Hr blnd Hi Hem Hne. apply (log_blnd blnd l w Hr); [by intros _|by intros _]. Qed.
(** So the backstop never pays out BLND that no event accounts for. *)
Corollary C88_no_silent_payment w l : reachable w ->
  let blnd := bs_blnd (x_bs (w_ext (run w l))) in
  bs_init (x_bs (w_ext (run w l))) = true -> em_blnd (emitter (run w l)) = blnd -> bs_token (x_bs (w_ext (run w l))) <> blnd ->
  (forall e, e ∈ event_log w l -> 0 <= blnd_flow e.2) -> held w blnd bs_addr <= held (run w l) blnd bs_addr.
Proof.
  intros Hr blnd Hi Hem Hne Hf. destruct (C88_blnd_follows_events w l Hr Hi Hem Hne) as [H _]. fold blnd in H.
  assert (0 <= blnd_flows (event_log w l)); [|lia]. unfold blnd_flows. by apply sumz_nonneg.
Qed.
