(** * Pools are isolated from one another (C64) *)
From Verif Require Import Base Types Token Emitter Factory Backstop PoolReserve PoolUser PoolHealth
  PoolAuction PoolSubmit PoolEmis PoolAdmin World Facts XMove Spec FrameFacts PoolFrame PoolCfg PoolAccrue PoolTrace PoolInv
  PropsPool1 PropsPool11 PropsPool12 BackMoves PropsBackstop.

(** ** What belongs to a pool *)

(** everything the backstop records for the pool [q] *)
Record BackstopView := mkView {
  v_pool : PoolBal;                        (* shares, tokens and queued shares *)
  v_users : Addr -> UserBal;               (* shares and queue of every depositor *)
  v_emis : option Z;                       (* BLND waiting for the pool *)
  v_cfg : option EmisConfig;               (* emissions to the depositors *)
  v_data : option EmisData;
  v_uemis : Addr -> option UserEmis
}.
Definition backstop_view (w : World) (q : Addr) : BackstopView :=
  let b := x_bs (w_ext w) in
  mkView (pool_bal w q) (user_bal w q) (bs_pemis b !! q) (bs_ecfg b !! q) (bs_edata b !! q) (fun u => bs_uemis b !! (q, u)).
Definition same_view (v v' : BackstopView) : Prop :=
  v_pool v' = v_pool v /\ (forall u, v_users v' u = v_users v u) /\ v_emis v' = v_emis v /\ v_cfg v' = v_cfg v /\
  v_data v' = v_data v /\ (forall u, v_uemis v' u = v_uemis v u).
(** tokens of asset [k] held by [a] *)
Definition tokens (w : World) (k a : Addr) : Z := balance (x_tok (w_ext w)) k a.

(** the transactions that name the pool [q]: calls of [q], and the expiry of its
    temporary storage *)
Definition concerns (q : Addr) (o : Op) : bool :=
  match o with
  | OPool _ a _ => a =? q
  | OExpireAuction a _ _ => a =? q
  | OExpireQueue a _ => a =? q
  | _ => false
  end.

(** ** Storage and tokens *)

(** No transaction but a call of the pool itself (or the expiry of its temporary
    storage) changes the storage of an existing pool or takes tokens from it. *)
Theorem C64_storage_untouched w o out w' q p :
  reachable w -> exec w o = Ok (out, w') -> concerns q o = false -> w_pools w !! q = Some p ->
  w_pools w' !! q = Some p /\ forall k, tokens w k q <= tokens w' k q.
Proof.
  intros Hr H Hc Hp. split.
  - unfold exec in H. destruct o as [sg o|sg a o|sg ad sa orc ra mp|b|dt ds|orc|n|b t u|b r|]; simpl in Hc; mon H; simpl; try done.
    + rewrite lookup_insert_ne by lia. done.
    + destruct (w_pools w !! dep_addr ad sa) eqn:E1; [done|]. mon H. simpl. rewrite lookup_insert_ne by congruence. done.
    + destruct (w_pools w !! b) eqn:E1; [done|]. mon H. simpl. rewrite lookup_insert_ne by congruence. done.
    + rewrite lookup_insert_ne by lia. done.
    + rewrite lookup_insert_ne by lia. done.
  - pose proof (pools_neg _ Hr _ _ Hp) as Hneg. apply (exec_xsafe q) in H as [Ht _]; [|done|done|].
    + destruct (Ht (reachable_noallow _ Hr)) as [_ Hb]. exact Hb.
    + intros sg po ->. simpl in Hc. lia.
Qed.

(** the backstop's books of another pool *)
Definition xview (q : Addr) (x x' : Ext) : Prop :=
  get_pb x' q = get_pb x q /\ (forall u, get_ub x' q u = get_ub x q u) /\ bs_pemis (x_bs x') !! q = bs_pemis (x_bs x) !! q /\
  bs_ecfg (x_bs x') !! q = bs_ecfg (x_bs x) !! q /\ bs_edata (x_bs x') !! q = bs_edata (x_bs x) !! q /\
  (forall u, bs_uemis (x_bs x') !! (q, u) = bs_uemis (x_bs x) !! (q, u)) /\
  bs_rz (x_bs x') = bs_rz (x_bs x) /\ bs_lpval (x_bs x') = bs_lpval (x_bs x) /\ bs_init (x_bs x') = bs_init (x_bs x) /\
  bs_token (x_bs x') = bs_token (x_bs x) /\ x_orc x' = x_orc x.
Lemma xview_refl q x : xview q x x. Proof. repeat split. Qed.
Lemma xview_trans q x y z : xview q x y -> xview q y z -> xview q x z.
Proof.
  intros (A1 & A2 & A3 & A4 & A5 & A6 & A7 & A8 & A9 & A10 & A11) (B1 & B2 & B3 & B4 & B5 & B6 & B7 & B8 & B9 & B10 & B11).
  repeat split; intros; etrans; eauto.
Qed.
Lemma xview_moves c self q x x' : self <> q -> xmoves c self x x' -> xview q x x'.
Proof.
  intros Hne. induction 1 as [x|x y z H _ IH]; [apply xview_refl|]. eapply xview_trans; [|exact IH]. clear IH z. destruct H.
  - repeat split.
  - repeat split.
  - unfold b_draw in H. mon H. repeat split. unfold get_pb. simpl. by rewrite lookup_insert_ne.
  - unfold b_donate in H. mon H. repeat split. unfold get_pb. simpl. by rewrite lookup_insert_ne.
  - unfold b_gulp_pool in H. mon H. repeat split; simpl; by rewrite ?lookup_insert_ne.
  - repeat split.
Qed.

(** A call of one pool leaves everything the backstop records for any other pool as
    it was, and the reward zone too. *)
Theorem C64_backstop_untouched w sg a po out w' q :
  exec w (OPool sg a po) = Ok (out, w') -> a <> q ->
  same_view (backstop_view w q) (backstop_view w' q) /\ bs_rz (x_bs (w_ext w')) = bs_rz (x_bs (w_ext w)).
Proof.
  intros H Hne. unfold exec in H. mon H. apply p_exec_xmoves in E0. simpl in *.
  destruct (xview_moves _ _ q _ _ Hne E0) as (A1 & A2 & A3 & A4 & A5 & A6 & A7 & _). repeat split; done.
Qed.

(** ** Outcomes *)

(** two token ledgers agree on everything the addresses in [D] hold *)
Definition tagree (D : list Addr) (t1 t2 : Tok) : Prop := forall k a, a ∈ D -> balance t1 k a = balance t2 k a.

Ltac same := eapply rel_bind; [apply rel_eq|intros ? ? <-].

Lemma bal_set_bal t k a v k' a' : balance (set_balance t k a v) k' a' = if decide ((k, a) = (k', a')) then v else balance t k' a'.
Proof. unfold balance, set_balance. simpl. case_decide as E; [rewrite <- E; by rewrite lookup_insert|by rewrite lookup_insert_ne]. Qed.
Lemma set_agree D t1 t2 k a v : tagree D t1 t2 -> tagree D (set_balance t1 k a v) (set_balance t2 k a v).
Proof. intros H k' a' Ha. rewrite !bal_set_bal. case_decide; [done|by apply H]. Qed.
Lemma move_agree D t1 t2 k from to n : from ∈ D -> to ∈ D -> tagree D t1 t2 -> rel (tagree D) (tok_move t1 k from to n) (tok_move t2 k from to n).
Proof.
  intros Hf Ht H. unfold tok_move. rewrite <- (H k from Hf). destruct (0 <=? n); [|done]. destruct (n <=? _); [|done].
  pose proof (set_agree D t1 t2 k from (balance t1 k from - n) H) as H1. rewrite <- (H1 k to Ht). eapply rel_bind; [apply rel_eq|intros nb ? <-].
  simpl. by apply set_agree.
Qed.
Lemma transfer_all_agree D c from to m t1 t2 : from ∈ D -> to ∈ D -> tagree D t1 t2 ->
  rel (tagree D) (transfer_all c from to t1 m) (transfer_all c from to t2 m).
Proof.
  intros Hf Ht H. unfold transfer_all. apply rel_foldM; [|done]. intros a b e Hab. unfold transfer. same. by apply move_agree.
Qed.

(** requests other than the fills of the backstop's own auctions *)
Definition no_backstop_fill (q : Request) : bool := negb ((rq_type q =? 7) || (rq_type q =? 8)).

(** the same state of the request loop in two outside worlds *)
Definition twin (x1 x2 : Ext) (s1 s2 : Loop) : Prop := lo_x s1 = x1 /\ lo_x s2 = x2 /\ s2 = s1 <| lo_x := x2 |>.
Lemma twin_mk x1 x2 p ch pos ac chk : twin x1 x2 (mkLoop p x1 ch pos ac chk) (mkLoop p x2 ch pos ac chk).
Proof. done. Qed.

Lemma request_twin c self from q x1 x2 s1 s2 : no_backstop_fill q = true -> twin x1 x2 s1 s2 ->
  rel (twin x1 x2) (do_request c self from s1 q) (do_request c self from s2 q).
Proof.
  intros Hq (H1 & _ & H2). destruct s1 as [p x ch pos ac chk]. simpl in H1. subst x. assert (s2 = mkLoop p x2 ch pos ac chk) as -> by exact H2. clear H2.
  unfold do_request. cbn [lo_ch]. same. same. unfold no_backstop_fill in Hq.
  destruct (rq_type q) as [|t|t] eqn:Et; [| |done].
  { unfold do_supply. cbn [lo_p lo_x lo_ch lo_pos lo_ac lo_check]. same. destruct a1 as [r ch1]. same. same. destruct a2 as [[p1 pos1] r1]. same. apply twin_mk. }
  assert (t = 1 \/ t = 2 \/ t = 3 \/ t = 4 \/ t = 5 \/ t = 6 \/ t = 9 \/ (t <> 7 /\ t <> 8 /\ 9 < t))%positive as Ht by lia.
  destruct Ht as [->|[->|[->|[->|[->|[->|[->|Ht]]]]]]].
  - unfold do_withdraw. cbn [lo_p lo_x lo_ch lo_pos lo_ac lo_check]. same. destruct a1 as [r ch1]. same. same. destruct a2 as [tb o]. same. destruct a2 as [[p1 pos1] r1]. same. apply twin_mk.
  - unfold do_supply_coll. cbn [lo_p lo_x lo_ch lo_pos lo_ac lo_check]. same. destruct a1 as [r ch1]. same. same. destruct a2 as [[p1 pos1] r1]. same. apply twin_mk.
  - unfold do_withdraw_coll. cbn [lo_p lo_x lo_ch lo_pos lo_ac lo_check]. same. destruct a1 as [r ch1]. same. same. destruct a2 as [tb o]. same. destruct a2 as [[p1 pos1] r1]. same. apply twin_mk.
  - unfold do_borrow. cbn [lo_p lo_x lo_ch lo_pos lo_ac lo_check]. same. destruct a1 as [r ch1]. same. same. destruct a2 as [[p1 pos1] r1]. same. same. apply twin_mk.
  - unfold do_repay. cbn [lo_p lo_x lo_ch lo_pos lo_ac lo_check]. same. destruct a1 as [r ch1]. same. same. destruct (_ <? _).
    + same. same. same. same. destruct a6 as [[p1 pos1] r1]. same. apply twin_mk.
    + same. destruct a3 as [[p1 pos1] r1]. apply twin_mk.
  - unfold do_fill, fill. cbn [lo_p lo_x lo_ch lo_pos lo_ac lo_check].
    eapply (rel_bind (fun a b => fst b = fst a /\ snd a = x1 /\ snd b = x2)).
    2:{ intros [[[p1 ch1] pos1] y1] [[[p2 ch2] pos2] y2] (E & Ea & Eb). simpl in E, Ea, Eb. simplify_eq. apply twin_mk. }
    destruct (negb (rq_addr q =? from)); [|done]. same. same. destruct a2 as [tf rem]. cbn [Z.eqb]. eapply (rel_bind (fun a b => fst b = fst a /\ snd a = x1 /\ snd b = x2)).
    + same. done.
    + intros [[[p1 ch1] pos1] y1] [[[p2 ch2] pos2] y2] (E & Ea & Eb). simpl in E, Ea, Eb. simplify_eq. by destruct rem.
  - unfold do_delete. cbn [lo_p lo_x lo_ch lo_pos lo_ac lo_check]. same. done.
  - do 4 (try (match goal with |- rel _ (match ?t with _ => _ end) _ => destruct t end)); try done; exfalso; lia.
Qed.

(** prices are all the health computation reads outside the pool *)
Lemma health_orc now p x1 x2 ch pos : x_orc x1 = x_orc x2 -> position_data now p x1 ch pos = position_data now p x2 ch pos.
Proof. destruct x1, x2. simpl. intros ->. reflexivity. Qed.

Lemma submit_twin c self p x1 x2 from spender to qs : forallb no_backstop_fill qs = true -> x_orc x1 = x_orc x2 ->
  tagree [self; spender; to] (x_tok x1) (x_tok x2) ->
  rel (fun a b => fst b = fst a /\ px_p (snd b) = px_p (snd a) /\ tagree [self; spender; to] (x_tok (px_x (snd a))) (x_tok (px_x (snd b))))
    (p_submit c self (mkPX p x1) from spender to qs) (p_submit c self (mkPX p x2) from spender to qs).
Proof.
  intros Hqs Ho Ht. unfold p_submit. cbn [px_p px_x]. same. same. destruct (negb (_ || _)); [|done].
  eapply (rel_bind (twin x1 x2)).
  { unfold build_actions. eapply (rel_bind (twin x1 x2)).
    - apply rel_foldM'; [apply twin_mk|]. intros s1 s2 q Hq Hs. apply request_twin; [|done].
      rewrite forallb_forall in Hqs. apply Hqs. by apply elem_of_list_In.
    - intros s1 s2 Hs. destruct Hs as (E1 & E2 & E3). assert (lo_ch s2 = lo_ch s1 /\ lo_pos s2 = lo_pos s1) as [-> ->] by (by rewrite E3). same. done. }
  intros s1 s2 (E1 & E2 & E3).
  assert (lo_p s2 = lo_p s1 /\ lo_ch s2 = lo_ch s1 /\ lo_pos s2 = lo_pos s1 /\ lo_ac s2 = lo_ac s1 /\ lo_check s2 = lo_check s1) as (F1 & F2 & F3 & F4 & F5) by (by rewrite E3).
  eapply (rel_bind eq).
  { unfold check_hf. rewrite F1, F2, F3, F5, (health_orc (c_now c) (lo_p s1) (lo_x s2) (lo_x s1)) by congruence. apply rel_eq. }
  intros ch ? <-. rewrite F1, F3, F4, E1, E2.
  eapply (rel_bind (tagree [self; spender; to])).
  { apply transfer_all_agree; [set_solver|set_solver|done]. }
  intros t1 t2 H1. same. eapply (rel_bind (tagree [self; spender; to])).
  { apply transfer_all_agree; [set_solver|set_solver|done]. }
  intros t3 t4 H2. simpl. done.
Qed.

(** pool calls that do not touch what the backstop holds for all pools together:
    everything but emission claims, [gulp_emissions] and fills of bad debt and
    interest auctions *)
Definition self_contained (po : POp) : bool :=
  match po with
  | PSubmit _ _ _ qs => forallb no_backstop_fill qs
  | PGulp => false
  | PClaim _ _ _ => false
  | _ => true
  end.
(** whose tokens a call can move, besides the pool's *)
Definition parties (po : POp) : list Addr := match po with PSubmit _ s t _ => [s; t] | _ => [] end.

Lemma health_one_orc x1 x2 : x_orc x1 = x_orc x2 ->
  (forall c p, interest_one c p x1 = interest_one c p x2) /\ (forall c p, bad_debt_one c p x1 = bad_debt_one c p x2) /\ load_dec x1 = load_dec x2.
Proof. destruct x1, x2. simpl. intros ->. repeat split. Qed.

Lemma p_exec_twin c self p x1 x2 po : self_contained po = true -> xview self x1 x2 -> tagree (self :: parties po) (x_tok x1) (x_tok x2) ->
  rel (fun a b => fst b = fst a /\ px_p (snd b) = px_p (snd a) /\ tagree (self :: parties po) (x_tok (px_x (snd a))) (x_tok (px_x (snd b))))
    (p_exec c self (mkPX p x1) po) (p_exec c self (mkPX p x2) po).
Proof.
  intros Hs (V1 & _ & _ & _ & _ & _ & _ & V8 & V9 & V10 & V11) Ht.
  assert (call_pool_data p x2 self = call_pool_data p x1 self) as Hpd.
  { unfold call_pool_data, pool_data. by rewrite V1, V8. }
  assert (call_backstop_token p x2 = call_backstop_token p x1) as Hbt.
  { unfold call_backstop_token. by rewrite V9, V10. }
  assert (x_orc x1 = x_orc x2) as Ho by done. destruct (health_one_orc _ _ Ho) as (O1 & O2 & O3).
  destruct po; simpl in Hs; try done; cbn [p_exec px_p px_x]; unfold on_pool; try (destruct (ps_init p); [|done]); cbn [px_p px_x].
  all: try (by same; simpl; repeat (destruct a; simpl)).
  - eapply rel_bind; [by apply submit_twin|]. intros [pos1 px1] [pos2 px2] (E & Ep & Ea). simpl in *. by subst.
  - unfold p_update_status. rewrite Hpd. same. by destruct a.
  - unfold p_set_status. rewrite Hpd. same. done.
  - assert (create_liquidation c self p x2 user pct = create_liquidation c self p x1 user pct) as ->.
    { unfold create_liquidation, create_user_liq. destruct x1, x2. simpl in Ho. subst. reflexivity. }
    same. by destruct a.
  - assert (create_bad_debt c self p x2 = create_bad_debt c self p x1) as ->.
    { unfold create_bad_debt. by rewrite Hpd, Hbt, O2, O3. }
    same. by destruct a.
  - assert (create_interest c self p x2 assets = create_interest c self p x1 assets) as ->.
    { unfold create_interest. by rewrite Hpd, Hbt, O1, O3. }
    same. by destruct a.
Qed.

(** a history of calls of other pools *)
Definition of_others (q : Addr) (l : list Op) : Prop := Forall (fun o => exists sg a po, o = OPool sg a po /\ a <> q) l.
Lemma others_run q l : of_others q l -> forall w,
  w_now (run w l) = w_now w /\ w_seq (run w l) = w_seq w /\ w_pools (run w l) !! q = w_pools w !! q /\ xview q (w_ext w) (w_ext (run w l)).
Proof.
  induction 1 as [|o l (sg & a & po & -> & Hne) _ IH]; intros w; [by repeat split|]. cbn [run]. destruct (IH (step w (OPool sg a po))) as (-> & -> & -> & Hv).
  assert (w_now (step w (OPool sg a po)) = w_now w /\ w_seq (step w (OPool sg a po)) = w_seq w /\
    w_pools (step w (OPool sg a po)) !! q = w_pools w !! q /\ xview q (w_ext w) (w_ext (step w (OPool sg a po)))) as (-> & -> & -> & Hv').
  { unfold step. destruct (exec w (OPool sg a po)) as [[out w']|e] eqn:H; [|by repeat split].
    unfold exec in H. mon H. simpl. split; [done|]. split; [done|]. split; [by rewrite lookup_insert_ne|].
    apply p_exec_xmoves in E0. by eapply xview_moves. }
  repeat split; try done; by eapply xview_trans.
Qed.

(** the same outcome for pool [q] and the addresses in [D] *)
Definition same_outcome (q : Addr) (D : list Addr) (r1 r2 : res (Out * World)) : Prop :=
  match r1, r2 with
  | Ok (out1, w1), Ok (out2, w2) =>
      out2 = out1 /\ w_pools w2 !! q = w_pools w1 !! q /\ forall k a, a ∈ D -> tokens w2 k a = tokens w1 k a
  | Err e1, Err e2 => e1 = e2
  | _, _ => False
  end.

(** Whatever is done in other pools in between, a call of pool [q] has the same
    outcome, provided the payer, the receiver and the pool still hold the same tokens. *)
Theorem C64_no_interference w l q sg po :
  of_others q l -> self_contained po = true ->
  (forall k a, a ∈ q :: parties po -> tokens (run w l) k a = tokens w k a) ->
  same_outcome q (q :: parties po) (exec w (OPool sg q po)) (exec (run w l) (OPool sg q po)).
Proof.
  intros Hl Hs Ht. destruct (others_run q l Hl w) as (E1 & E2 & E3 & Hv). unfold exec. destruct (_ && _); [|done].
  assert (ctx (run w l) sg = ctx w sg) as -> by (unfold ctx; by rewrite E1, E2). rewrite E3.
  destruct (w_pools w !! q) as [p|]; [|done]. cbn [unwrap bind].
  assert (tagree (q :: parties po) (x_tok (w_ext w)) (x_tok (w_ext (run w l)))) as Ha by (intros k a Hk; symmetry; by apply Ht).
  pose proof (p_exec_twin (ctx w sg) q p _ _ po Hs Hv Ha) as H. unfold rel in H.
  destruct (p_exec (ctx w sg) q (mkPX p (w_ext w)) po) as [[o1 px1]|e1], (p_exec (ctx w sg) q (mkPX p (w_ext (run w l))) po) as [[o2 px2]|e2]; simpl in *; try done.
  destruct H as (-> & Hp & Hb). split; [done|]. rewrite !lookup_insert, Hp. split; [done|]. intros k a Hk. unfold tokens. simpl. symmetry. by apply Hb.
Qed.
