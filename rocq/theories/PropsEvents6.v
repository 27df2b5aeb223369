(** * Who takes part can be replayed from the events (C90) *)
From Verif Require Import Base Types Token Emitter Factory Backstop PoolReserve PoolUser PoolHealth
  PoolAuction PoolSubmit PoolEmis PoolAdmin World Events Facts XMove Spec FrameFacts PoolFrame PoolCfg
  BackMoves PropsEmitter PropsAdmin PropsBackstop3 PropsEvents1 PropsEvents2.

(** ** Specification *)
(** what somebody who reads only the events knows of the parties: the pools of the factory, the reward zone, the emitter's backstop and
    its token, the queued swap, the backstops that have had their drop, and when each backstop was last distributed to *)
Record Roster := mkRoster {
  ro_pools : Addr -> bool; ro_zone : list Addr; ro_backstop : Addr; ro_token : Addr; ro_swap : option Swap;
  ro_dropped : Addr -> bool; ro_last : Addr -> option Z
}.
Definition at_key {A} (f : Addr -> A) (k : Addr) (v : A) : Addr -> A := fun j => if j =? k then v else f j.
(** an event [e] published in a ledger of time [t] *)
Definition enter (r : Roster) (te : Z * Event) : Roster :=
  let '(t, e) := te in
  match e with
  | VDeploy p => mkRoster (at_key (ro_pools r) p true) (ro_zone r) (ro_backstop r) (ro_token r) (ro_swap r) (ro_dropped r) (ro_last r)
  (* a zone with room grows; a full one lets [out] go for [a] *)
  | VBZone a out => mkRoster (ro_pools r)
      (if Z.of_nat (length (ro_zone r)) <? rz_max t then a :: ro_zone r else map (fun p => if p =? out then a else p) (ro_zone r))
      (ro_backstop r) (ro_token r) (ro_swap r) (ro_dropped r) (ro_last r)
  | VQueueSwap s => mkRoster (ro_pools r) (ro_zone r) (ro_backstop r) (ro_token r) (Some s) (ro_dropped r) (ro_last r)
  | VDelSwap _ => mkRoster (ro_pools r) (ro_zone r) (ro_backstop r) (ro_token r) None (ro_dropped r) (ro_last r)
  | VSwap s => mkRoster (ro_pools r) (ro_zone r) (sw_backstop s) (sw_token s) None (ro_dropped r)
      (at_key (at_key (ro_last r) (ro_backstop r) (Some t)) (sw_backstop s) (Some t))
  | VDrop _ => mkRoster (ro_pools r) (ro_zone r) (ro_backstop r) (ro_token r) (ro_swap r) (at_key (ro_dropped r) (ro_backstop r) true) (ro_last r)
  | VDistribute b _ => mkRoster (ro_pools r) (ro_zone r) (ro_backstop r) (ro_token r) (ro_swap r) (ro_dropped r) (at_key (ro_last r) b (Some t))
  | _ => r
  end.
(** the events of a history, each with the time of its ledger *)
Fixpoint dated_log (w : World) (l : list Op) : list (Z * Event) :=
  match l with [] => [] | o :: l => map (pair (w_now w)) (events w o) ++ dated_log (step w o) l end.
(** the roster is right about a world *)
Definition right (r : Roster) (w : World) : Prop :=
  (forall p, ro_pools r p = bool_decide (p ∈ fa_deployed (x_fac (w_ext w)))) /\ ro_zone r = bs_rz (x_bs (w_ext w)) /\
  ro_backstop r = em_backstop (emitter w) /\ ro_token r = em_token (emitter w) /\ ro_swap r = em_swap (emitter w) /\
  (forall b, ro_dropped r b = bool_decide (b ∈ em_dropped (emitter w))) /\ (forall b, ro_last r b = em_last (emitter w) !! b).

(** ** Events that leave the roster alone *)
Definition idle (e : Event) : Prop := forall r t, enter r (t, e) = r.
Lemma fold_idle t es r : Forall idle es -> fold_left enter (map (pair t) es) r = r.
Proof. intros H. revert r. induction H as [|e es He _ IH]; intros r; [done|]. cbn [map fold_left]. by rewrite He, IH. Qed.
Lemma one_idle e es : idle e -> Ok [e] = Ok es -> Forall idle es.
Proof. intros He [= <-]. constructor; [exact He|constructor]. Qed.
Lemma debts_idle self u l liab es : debts_ev self u l liab = Ok es -> Forall idle es.
Proof.
  unfold debts_ev. intros H. eapply all_fold; [|exact H|constructor]. intros l0 e l1 H1 H0. apply bind_ok in H1 as (r & _ & H1). apply Ok_inj in H1 as <-.
  apply Forall_app. split; [done|]. constructor; [done|constructor].
Qed.
Lemma request_idle c self from s q es : request_ev c self from s q = Ok es -> Forall idle es.
Proof.
  unfold request_ev. cbv zeta. intros H.
  assert (forall mk, (forall x n, idle (mk x n)) -> supply_ev (c_now c) s q mk = Ok es -> Forall idle es) as HS.
  { intros mk Hm Hs. unfold supply_ev in Hs. apply bind_ok in Hs as ([r ch] & _ & Hs). apply bind_ok in Hs as (m & _ & Hs). by eapply one_idle. }
  assert (forall h mk, (forall x n, idle (mk x n)) -> withdraw_ev (c_now c) s q h mk = Ok es -> Forall idle es) as HW.
  { intros h mk Hm Hs. unfold withdraw_ev in Hs. apply bind_ok in Hs as ([r ch] & _ & Hs). cbv zeta in Hs. apply bind_ok in Hs as (m & _ & Hs). destruct (_ <? _); [apply bind_ok in Hs as (o & _ & Hs)|]; by eapply one_idle. }
  assert (forall mk, (forall x n, idle (mk x n)) -> borrow_ev (c_now c) s q mk = Ok es -> Forall idle es) as HB.
  { intros mk Hm Hs. unfold borrow_ev in Hs. apply bind_ok in Hs as ([r ch] & _ & Hs). apply bind_ok in Hs as (m & _ & Hs). by eapply one_idle. }
  assert (forall mk, (forall x n, idle (mk x n)) -> repay_ev (c_now c) s q mk = Ok es -> Forall idle es) as HR.
  { intros mk Hm Hs. unfold repay_ev in Hs. apply bind_ok in Hs as ([r ch] & _ & Hs). cbv zeta in Hs. apply bind_ok in Hs as (m & _ & Hs). destruct (_ <? _); [apply bind_ok in Hs as (o & _ & Hs); apply bind_ok in Hs as (o1 & _ & Hs); apply bind_ok in Hs as (o2 & _ & Hs)|]; by eapply one_idle. }
  destruct (rq_type q) as [|k|k]; [|do 4 (try destruct k as [k|k|])|]; try (apply Ok_inj in H as <-; constructor; [done|constructor] || constructor; fail).
  all: try (eapply HS; [|exact H]; done). all: try (eapply HW; [|exact H]; done). all: try (eapply HB; [|exact H]; done). all: try (eapply HR; [|exact H]; done).
  all: try (apply Ok_inj in H as <-; constructor; fail).
  all: try (apply Ok_inj in H as <-; constructor; [done|constructor]; fail).
  - apply bind_ok in H as (e0 & He & H). apply Ok_inj in H as <-. apply Forall_app. split; [|constructor; [done|constructor]].
    unfold fill_bad_debt_ev in He. cbv zeta in He. apply bind_ok in He as (au & _ & He). apply bind_ok in He as ([tf rem] & _ & He). apply bind_ok in He as ([[p1 ch1] bpos] & _ & He). apply bind_ok in He as ([[p2 ch2] fpos] & _ & He).
    apply bind_ok in He as (bt & _ & He). apply bind_ok in He as (lot & _ & He). apply bind_ok in He as (x & _ & He). destruct (bool_decide _); [eapply one_idle; [|exact He]; done|]. apply bind_ok in He as (pd & _ & He).
    destruct (_ <? 3); [|eapply one_idle; [|exact He]; done]. apply bind_ok in He as (es1 & He1 & He). apply Ok_inj in He as <-. constructor; [done|]. by eapply debts_idle.
  - apply bind_ok in H as (e0 & He & H). apply Ok_inj in H as <-. apply Forall_app. split; [|constructor; [done|constructor]].
    unfold fill_interest_ev in He. apply bind_ok in He as (au & _ & He). apply bind_ok in He as ([tf rem] & _ & He). apply bind_ok in He as (bt & _ & He). apply bind_ok in He as (bid & _ & He). eapply one_idle; [|exact He]. done.
Qed.
Lemma requests_idle c self from qs : forall s es, requests_ev c self from s qs = Ok es -> Forall idle es.
Proof.
  induction qs as [|q qs IH]; intros s es H; cbn [requests_ev] in H; [apply Ok_inj in H as <-; constructor|]. apply bind_ok in H as (e & He & H). apply bind_ok in H as (s1 & _ & H). apply bind_ok in H as (es1 & H1 & H). apply Ok_inj in H as <-.
  apply Forall_app. split; [by eapply request_idle|by eapply IH].
Qed.
Lemma pool_idle c self p x o out p' es : pool_ev c self p x o out p' = Ok es -> Forall idle es.
Proof.
  intros H. destruct o; cbn [pool_ev] in H.
  all: try (by eapply debts_idle). all: try (unfold submit_ev in H; by eapply requests_idle).
  all: try (eapply one_idle; [|exact H]; done).
  all: try (apply Ok_inj in H as <-; constructor; fail).
  all: destruct out; try (apply Ok_inj in H as <-; constructor; fail). all: try (eapply one_idle; [|exact H]; done).
  apply bind_ok in H as (e1 & Hf & H). apply Ok_inj in H as <-. apply Forall_app. split; [|repeat constructor; done].
  eapply all_fold; [|exact Hf|constructor]. intros l0 e0 l1 H3 H0. apply bind_ok in H3 as (r & _ & H3). apply Ok_inj in H3 as <-. apply Forall_app. split; [done|]. constructor; [done|constructor].
Qed.
(** the emitter's and the backstop's other events *)
Definition roster_op (o : XOp) : bool :=
  match o with EDistribute | EQueueSwap _ _ | ECancelSwap | ESwap | EDrop _ | BDrop | BAddReward _ _ => true | _ => false end.
Lemma ext_idle c x o out x' es : roster_op o = false -> ext_ev c x o out x' = Ok es -> Forall idle es.
Proof.
  intros Hn H. destruct o; try done; cbn [ext_ev] in H; try (eapply one_idle; [|exact H]; done); try (apply Ok_inj in H as <-; constructor; fail).
  all: try (apply bind_ok in H as (s & _ & H); eapply one_idle; [|exact H]; done).
  all: try (destruct out; try (eapply one_idle; [|exact H]; done); apply Ok_inj in H as <-; constructor; fail).
  unfold claim_ev in H. apply bind_ok in H as ([[n1 m1] x1] & _ & H). destruct (0 <? n1); [|eapply one_idle; [|exact H]; done]. cbv zeta in H.
  apply bind_ok in H as (t3 & _ & H). apply bind_ok in H as (t4 & _ & H). apply bind_ok in H as ([es1 x3] & Hf & H). apply Ok_inj in H as <-. apply Forall_app. split; [|by repeat constructor].
  revert Hf. match goal with |- foldM ?g _ _ = _ -> _ => assert (forall l s s', foldM g s l = Ok s' -> Forall idle s.1 -> Forall idle s'.1) as HF end.
  { intros l. induction l as [|p l IH]; intros s s' Hs H0; cbn [foldM] in Hs; [by apply Ok_inj in Hs as <-|]. apply bind_ok in Hs as (s1 & Hs1 & Hs). eapply IH; [exact Hs|]. destruct s as [l0 y0]. unfold claim_dep_ev in Hs1.
    apply bind_ok in Hs1 as (a & _ & Hs1). apply bind_ok in Hs1 as (dep & _ & Hs1). apply bind_ok in Hs1 as (sh & _ & Hs1). apply bind_ok in Hs1 as (y & _ & Hs1). apply Ok_inj in Hs1 as <-. cbn [fst]. apply Forall_app. split; [done|]. constructor; [done|constructor]. }
  intros Hf. by apply (HF _ _ (es1, x3)) in Hf; [|constructor].
Qed.

(** ** What transactions change *)
Lemma right_same r w w' : right r w -> fa_deployed (x_fac (w_ext w')) = fa_deployed (x_fac (w_ext w)) -> bs_rz (x_bs (w_ext w')) = bs_rz (x_bs (w_ext w)) -> emitter w' = emitter w -> right r w'.
Proof. unfold right. intros D -> -> ->. exact D. Qed.
Lemma deployed_same w o out w' : exec w o = Ok (out, w') -> (forall sg admin salt orc rate mp, o <> ODeploy sg admin salt orc rate mp) ->
  fa_deployed (x_fac (w_ext w')) = fa_deployed (x_fac (w_ext w)).
Proof.
  intros H Ho. apply leibniz_equiv. intros a. pose proof (deployed_step _ _ _ _ H a) as Hd. unfold fa_is_pool in Hd. rewrite !bool_decide_eq_true in Hd.
  split; [intros Hx; apply Hd in Hx as [?|(? & ? & ? & ? & ? & ? & Hx & _)]; [done|by apply Ho in Hx]|intros Hx; apply Hd; by left].
Qed.
Lemma zone_same w o out w' : exec w o = Ok (out, w') -> (forall sg a b, o <> OExt sg (BAddReward a b)) -> bs_rz (x_bs (w_ext w')) = bs_rz (x_bs (w_ext w)).
Proof. intros H Ho. apply reward_zone_changes in H as [?|(sg & a & b & _ & -> & _)]; [done|by destruct (Ho sg a b)]. Qed.
Lemma replace_map r a l : NoDup l -> a ∉ l -> replace_first r a l = map (fun p => if p =? r then a else p) l.
Proof.
  induction l as [|h l IH]; intros H Ha; [done|]. apply NoDup_cons in H as [Hh H]. apply not_elem_of_cons in Ha as [Hn Ha]. cbn [replace_first map]. destruct (Z.eqb_spec h r) as [->|Hne]; [|by rewrite IH].
  f_equal. clear -Hh. induction l as [|x l IH]; [done|]. apply not_elem_of_cons in Hh as [H1 H2]. cbn [map]. rewrite (proj2 (Z.eqb_neq x r)) by congruence. by rewrite <- IH.
Qed.
Lemma rz_max_model n : max_rz_len n = rz_max n.
Proof. unfold rz_max, max_rz_len, BACKSTOP_EPOCH. by rewrite Z.shiftr_div_pow2 by lia. Qed.
Lemma in_insert (X : gset Addr) k b : bool_decide (b ∈ {[ k ]} ∪ X) = at_key (fun j => bool_decide (j ∈ X)) k true b.
Proof.
  unfold at_key. destruct (Z.eqb_spec b k) as [->|Hn].
  - apply bool_decide_eq_true. set_solver.
  - apply bool_decide_ext. set_solver.
Qed.
Lemma last_insert (m : gmap Addr Z) k v b : <[k := v]> m !! b = at_key (fun j => m !! j) k (Some v) b.
Proof. unfold at_key. destruct (Z.eqb_spec b k) as [->|Hn]; [by rewrite lookup_insert|by rewrite lookup_insert_ne]. Qed.
Lemma at_key_ext {A} (f g : Addr -> A) k v b : (forall j, f j = g j) -> at_key f k v b = at_key g k v b.
Proof. intros H. unfold at_key. by rewrite H. Qed.

Lemma drop_em c x l x' : em_drop c x l = Ok x' -> x_em x' = x_em x <| em_dropped := {[ em_backstop (x_em x) ]} ∪ em_dropped (x_em x) |>.
Proof. intros H. unfold em_drop in H. mon H. mints_as Hx. cbn. by rewrite Hx. Qed.
Lemma em_init_kept w o out w' : exec w o = Ok (out, w') -> em_init (emitter w) = true -> em_init (emitter w') = true.
Proof.
  intros H Hi. pose proof (exec_em _ _ _ _ H) as Hem.
  destruct o as [sg o| | | | | | | | |]; try (by rewrite Hem).
  unfold exec in H. mon1 H. destruct o; try (by rewrite Hem); mon H; unfold x_exec, ret_unit, ret_z in E; mon E;
    unfold emitter in *; simpl in *.
  - unfold em_initialize in E0. by mon E0.
  - unfold em_distribute in E0. mon E0. apply em_execute_distribute_spec in E0 as (? & _ & _ & _ & Hx & _). by rewrite Hx.
  - unfold em_queue_swap in E0. by mon E0.
  - unfold em_cancel_swap in E0. by mon E0.
  - unfold em_swap_backstop in E0. mon E0. apply em_execute_distribute_spec in E1 as (? & _ & _ & _ & Hx & _). simpl. by rewrite Hx.
  - unfold em_drop in E0. mon E0. mints_as Hx. simpl. by rewrite Hx.
  - unfold b_drop, em_drop in E0. mon E0. mints_as Hx. simpl. by rewrite Hx.
Qed.
Lemma exec_enter w o out w' r : reachable w -> em_init (emitter w) = true -> exec w o = Ok (out, w') -> right r w ->
  right (fold_left enter (map (pair (w_now w)) (events w o)) r) w'.
Proof.
  intros Hr Hi H D. destruct (C82_events_defined _ _ _ _ Hr H) as [es Hes]. unfold events. rewrite H, Hes. pose proof (exec_em _ _ _ _ H) as Hem.
  destruct o as [sg xo|sg a po|sg ad salt orc rate mp|b0|dt ds|orc|n|b0 t u|b0 x|].
  all: try (cbn [op_ev] in Hes; apply Ok_inj in Hes as <-; cbn [map fold_left]; eapply right_same; [exact D| | |exact Hem]; [by eapply deployed_same|by eapply zone_same]).
  - cbn [op_ev] in Hes. destruct (roster_op xo) eqn:Ho.
    2:{ apply ext_idle in Hes; [|done]. rewrite fold_idle by done. destruct xo; try done; try (eapply right_same; [exact D| | |exact Hem]; [by eapply deployed_same|by eapply zone_same]).
        exfalso. unfold exec in H. apply assert_ok in H as [_ H]. apply bind_ok in H as ([o1 x1] & H & _). cbn [x_exec] in H. unfold ret_unit in H. apply bind_ok in H as (x2 & H & _). unfold em_initialize in H. apply assert_ok in H as [H _]. unfold emitter in Hi. cbn in *. by rewrite Hi in H. }
    pose proof (deployed_same _ _ _ _ H ltac:(done)) as Hfac. assert ((forall a b, xo <> BAddReward a b) -> bs_rz (x_bs (w_ext w')) = bs_rz (x_bs (w_ext w))) as Hz by (intros Hx; eapply zone_same; [exact H|]; intros ? ? ? [= -> ->]; by eapply Hx).
    destruct D as (D1 & D2 & D3 & D4 & D5 & D6 & D7).
    destruct xo; try done.
    all: pose proof H as HX; unfold exec in H; apply assert_ok in H as [_ H]; apply bind_ok in H as ([o1 x1] & H & HE); apply Ok_inj in HE; injection HE as <- <-; cbn [x_exec] in H; unfold ret_unit, ret_z in H.
    all: try (rewrite (Hz ltac:(done)) in *).
    all: cbn [w_ext] in *; unfold emitter in *; cbn [w_ext] in *.
    + apply bind_ok in H as ([n x2] & H & H2). apply Ok_inj in H2. injection H2 as <- <-. cbn [op_ev ext_ev] in Hes. apply Ok_inj in Hes as <-. unfold em_distribute in H. apply assert_ok in H as [_ H].
      apply em_execute_distribute_spec in H as (last & _ & _ & _ & Hx & _). unfold right. rewrite Hfac, Hz by done. unfold emitter. cbn. rewrite Hx. cbn.
      do 6 (split; [done|]). intros b. rewrite last_insert. by apply at_key_ext.
    + apply bind_ok in H as (x2 & H & H2). apply Ok_inj in H2. injection H2 as <- <-. cbn [op_ev ext_ev w_ext] in Hes. unfold em_queue_swap in H. apply assert_ok in H as [_ H]. apply assert_ok in H as [_ H]. apply assert_ok in H as [_ H]. apply bind_ok in H as (ul & _ & H). apply Ok_inj in H as <-.
      cbn in Hes. apply Ok_inj in Hes as <-. done.
    + apply bind_ok in H as (x2 & H & H2). apply Ok_inj in H2. injection H2 as <- <-. cbn [op_ev ext_ev w_ext] in Hes. apply bind_ok in Hes as (sw & _ & Hes). apply Ok_inj in Hes as <-.
      unfold em_cancel_swap in H. apply bind_ok in H as (s & _ & H). apply assert_ok in H as [_ H]. apply Ok_inj in H as <-. done.
    + apply bind_ok in H as (x2 & H & H2). apply Ok_inj in H2. injection H2 as <- <-. cbn [op_ev ext_ev w_ext] in Hes. apply bind_ok in Hes as (sw & Hsw & Hes). apply Ok_inj in Hes as <-.
      unfold em_swap_backstop in H. apply bind_ok in H as (s & Hs & H). assert (s = sw) as -> by (destruct (em_swap (x_em (w_ext w))); [injection Hs as <-; by injection Hsw as <-|done]).
      apply assert_ok in H as [_ H]. cbv zeta in H. apply assert_ok in H as [_ H]. apply bind_ok in H as ([n x3] & H & H2). apply Ok_inj in H2 as <-.
      apply em_execute_distribute_spec in H as (last & _ & _ & _ & Hx & _). unfold right. rewrite Hfac, Hz by done. unfold emitter. cbn. rewrite Hx. cbn. do 6 (split; [done|]). intros b. rewrite D3, last_insert. apply at_key_ext. intros j. rewrite last_insert. by apply at_key_ext.
    + apply bind_ok in H as (x2 & H & H2). apply Ok_inj in H2. injection H2 as <- <-. cbn [op_ev ext_ev w_ext] in Hes. apply Ok_inj in Hes as <-. apply drop_em in H. unfold right. rewrite Hfac, Hz by done. unfold emitter. cbn. rewrite H. cbn. do 5 (split; [done|]). split; [|done].
      intros b. rewrite in_insert, D3. by apply at_key_ext.
    + apply bind_ok in H as (x2 & H & H2). apply Ok_inj in H2. injection H2 as <- <-. cbn [op_ev ext_ev w_ext] in Hes. apply bind_ok in Hes as (dl & _ & Hes). apply Ok_inj in Hes as <-.
      unfold b_drop in H. apply assert_ok in H as [_ H]. apply assert_ok in H as [_ H]. apply bind_ok in H as (dl2 & _ & H). apply drop_em in H. unfold right. rewrite Hfac, Hz by done. unfold emitter. cbn. rewrite H. cbn. do 5 (split; [done|]). split; [|done].
      intros b. rewrite in_insert, D3. by apply at_key_ext.
    + apply bind_ok in H as (x2 & H & H2). apply Ok_inj in H2. injection H2 as <- <-. cbn [op_ev ext_ev w_ext] in Hes. apply Ok_inj in Hes as <-.
      unfold b_add_reward in H. cbv zeta in H. apply assert_ok in H as [Hna H]. apply bind_ok in H as (d & _ & H). apply assert_ok in H as [_ H].
      apply negb_true_iff in Hna. assert (to_add ∉ bs_rz (x_bs (w_ext w))) as Hni by (intros Hx; apply mem_addr_in in Hx; congruence).
      unfold right. rewrite Hfac. assert (emitter (w <| w_ext := x2 |>) = emitter w) as -> by exact Hem. cbn. split; [done|]. split; [|done]. rewrite D2.
      change (c_now (ctx w sg)) with (w_now w) in H. rewrite rz_max_model in H. destruct (_ <? _); [by apply Ok_inj in H as <-|]. apply assert_ok in H as [_ H]. apply bind_ok in H as (lim & _ & H). apply assert_ok in H as [_ H]. apply assert_ok in H as [_ H]. apply Ok_inj in H as <-.
      cbn. rewrite replace_map; [done| |done]. by apply C46_no_duplicates_and_bounded.
  - cbn [op_ev] in Hes. apply bind_ok in Hes as (p & _ & Hes). apply bind_ok in Hes as (p' & _ & Hes). apply pool_idle in Hes. rewrite fold_idle by done. eapply right_same; [exact D| | |exact Hem]; [by eapply deployed_same|by eapply zone_same].
  - cbn [op_ev] in Hes. apply Ok_inj in Hes as <-. destruct D as (D1 & D2 & D3 & D4 & D5 & D6 & D7). unfold right. rewrite Hem. rewrite (zone_same _ _ _ _ H) by done.
    unfold exec in H. apply assert_ok in H as [_ H]. cbv zeta in H. apply bind_ok in H as (u & _ & H). destruct (w_pools w !! _) as [p|]; [done|]. apply bind_ok in H as (p & _ & H). apply Ok_inj in H. injection H as _ <-. cbn.
    split; [|done]. intros j. rewrite in_insert. by apply at_key_ext.
Qed.
Theorem C90_roster_replay w l r : reachable w -> em_init (emitter w) = true -> right r w -> right (fold_left enter (dated_log w l) r) (run w l).
Proof.
  revert w r. induction l as [|o l IH]; intros w r Hr Hi D; [exact D|].
  cbn [dated_log]. rewrite fold_left_app. change (run w (o :: l)) with (run (step w o) l).
  apply IH; [exact (reachable_run w [o] Hr)| |].
  - unfold step. destruct (exec w o) as [[out w']|] eqn:E; [|done]. by eapply em_init_kept.
  - unfold step, events. destruct (exec w o) as [[out w']|] eqn:E; [|done]. pose proof (exec_enter _ _ _ _ r Hr Hi E D) as G. unfold events in G. by rewrite E in G.
Qed.
