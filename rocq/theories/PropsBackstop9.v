(** * The backstop holds the BLND it owes to pools (C73) *)
From Verif Require Import Base Types Token Emitter Factory Backstop PoolReserve PoolUser PoolHealth
  PoolAuction PoolSubmit PoolEmis PoolAdmin World Facts XMove Spec FrameFacts PoolFrame PoolCfg BackMoves BackInv BackEmis
  PropsEmitter PropsAdmin PropsBackstop PropsBackstop3 PropsBackstop4 PropsAdmin3 PropsToken.

(** ** Observers *)
(** the allowance on token [K] the backstop has granted to [p] and that [p] has not used, even if it has expired *)
Definition gr (K : Addr) (x : Ext) (p : Addr) : Z := default 0 (fst <$> tk_allow (x_tok x) !! (K, bs_addr, p)).
Definition bb (K : Addr) (x : Ext) : Z := balance (x_tok x) K bs_addr.
Definition due (K : Addr) (x : Ext) (ps : list Addr) : Z := sumz (fun p => gr K x p + get_pemis x p) ps.
Definition paid_ev (e : Ev) : Z := to_pools e + claimed_ev e.

(** ** The invariant *)
(** [m] has been received from the emitter *)
Definition sol (K m : Z) (x : Ext) : Prop :=
  (forall p, 0 <= gr K x p /\ 0 <= get_pemis x p) /\
  forall ps, NoDup ps -> due K x ps + m <= bb K x + sumz paid_ev (x_log x).
(** the configuration of the backstop is not what its tokens conflict with *)
Definition good (K : Addr) (x : Ext) : Prop := bs_init (x_bs x) = true -> bs_blnd (x_bs x) = K /\ bs_token (x_bs x) <> K.

Definition fixed (x x' : Ext) : Prop :=
  bs_init (x_bs x') = bs_init (x_bs x) /\ bs_blnd (x_bs x') = bs_blnd (x_bs x) /\ bs_token (x_bs x') = bs_token (x_bs x).
(** nothing that matters for the BLND of the backstop, except that it may receive more *)
Definition sq (K : Addr) (x x' : Ext) : Prop :=
  bs_pemis (x_bs x') = bs_pemis (x_bs x) /\ sumz paid_ev (x_log x') = sumz paid_ev (x_log x) /\
  (forall p, tk_allow (x_tok x') !! (K, bs_addr, p) = tk_allow (x_tok x) !! (K, bs_addr, p)) /\ bb K x <= bb K x'.
Lemma sq_refl K x : sq K x x. Proof. split; [done|]. split; [done|]. split; [done|lia]. Qed.
Lemma sq_trans K x y z : sq K x y -> sq K y z -> sq K x z.
Proof.
  intros (P & L & A & B) (P' & L' & A' & B'). split; [congruence|]. split; [congruence|]. split; [|lia].
  intros p. rewrite <- A. apply A'.
Qed.
Lemma sq_sol K m x x' : sq K x x' -> sol K m x -> sol K m x'.
Proof.
  intros (P & L & A & B) [S1 S2].
  assert (forall p, gr K x' p = gr K x p) as G by (intros p; unfold gr; by rewrite A).
  assert (forall p, get_pemis x' p = get_pemis x p) as E by (intros p; unfold get_pemis; by rewrite P).
  split; [intros p; rewrite G, E; apply S1|]. intros ps Hn. specialize (S2 ps Hn).
  assert (due K x' ps = due K x ps) as -> by (apply sumz_ext; intros p _; by rewrite G, E). rewrite L. lia.
Qed.
Lemma sq_tok K x t : (forall p, tk_allow t !! (K, bs_addr, p) = tk_allow (x_tok x) !! (K, bs_addr, p)) ->
  balance (x_tok x) K bs_addr <= balance t K bs_addr -> sq K x (x <| x_tok := t |>).
Proof. intros A B. split; [done|]. split; [done|]. split; [done|]. exact B. Qed.
Lemma sq_move K x k from to n t : from <> bs_addr \/ k <> K -> tok_move (x_tok x) k from to n = Ok t -> sq K x (x <| x_tok := t |>).
Proof.
  intros Hf H. assert (from <> bs_addr \/ n = 0 \/ k <> K) as Hf' by tauto. pose proof (tok_move_bal _ _ _ _ _ _ K bs_addr Hf' H). apply tok_move_spec in H as (_ & Ha & _).
  apply sq_tok; [intros p; by rewrite Ha|lia].
Qed.
(** a change of the backstop's other storage *)
Lemma sq_bs K x x' : x_tok x' = x_tok x -> bs_pemis (x_bs x') = bs_pemis (x_bs x) -> x_log x' = x_log x -> sq K x x'.
Proof. intros T P L. split; [done|]. split; [by rewrite L|]. split; [by rewrite T|]. unfold bb. rewrite T. lia. Qed.
Lemma sq_emis K x x' : emis_frame x x' -> sq K x x'.
Proof. intros (e & u & ->). by apply sq_bs. Qed.

(** an allowance is used *)
Lemma sol_spend K m c x k sp from to n t : transfer_from c (x_tok x) k sp from to n = Ok t -> sol K m x -> sol K m (x <| x_tok := t |>).
Proof.
  intros H S. unfold transfer_from in H. mon H. clear E.
  match type of H with tok_move ?t1 _ _ _ _ = _ => set (t1' := t1) in *; assert (tk_bal t1' = tk_bal (x_tok x)) as Hb by (unfold t1'; repeat case_match; done) end.
  destruct (decide (k = K /\ from = bs_addr)) as [[-> ->]|Hne].
  2:{ apply (sq_sol K m x); [|done]. apply sq_tok.
      - intros p. apply tok_move_spec in H as (_ & -> & _). unfold t1'. destruct (tk_allow (x_tok x) !! (k, from, sp)) as [[v live]|]; [|done]. destruct (n =? 0); [done|].
        simpl. rewrite lookup_insert_ne; [done|]. intros [= -> -> ->]. by apply Hne.
      - assert (from <> bs_addr \/ n = 0 \/ k <> K) as Hf'.
        { destruct (decide (k = K)) as [->|]; [|by right; right]. left. intros ->. by apply Hne. }
        pose proof (tok_move_bal _ _ _ _ _ _ K bs_addr Hf' H) as Hx.
        unfold balance in *. rewrite Hb in Hx. lia. }
  destruct S as [S1 S2]. pose proof (tok_move_spec _ _ _ _ _ _ H) as (Hn & Ha & _ & Hbal & _).
  assert (gr K x sp - n = gr K (x <| x_tok := t |>) sp /\ 0 <= gr K (x <| x_tok := t |>) sp /\ forall p, p <> sp -> gr K (x <| x_tok := t |>) p = gr K x p) as (Ga & Gb & Gc).
  { unfold gr. cbn [x_tok x_bs set]. change (x_tok (x <| x_tok := t |>)) with t. change (x_bs (x <| x_tok := t |>)) with (x_bs x). rewrite Ha.
    specialize (S1 sp). unfold gr in S1.  unfold t1', allowance in *.
    destruct (tk_allow (x_tok x) !! (K, bs_addr, sp)) as [[v live]|] eqn:Ek.
    - simpl in S1. destruct (Z.eqb_spec n 0) as [->|Hn0].
      + rewrite Ek. simpl. split; [lia|]. split; [lia|done].
      + simpl. rewrite lookup_insert. simpl. destruct (live <? c_seq c); [lia|]. split; [lia|]. split; [lia|].
        intros p Hp. rewrite lookup_insert_ne; [done|]. intros [= ->]. done.
    - rewrite Ek. simpl. split; [lia|]. split; [lia|]. done. }
  assert (bb K x - n <= bb K (x <| x_tok := t |>)) as B.
  { unfold bb. simpl. rewrite Hbal. unfold balance. rewrite Hb. repeat case_bool_decide; lia. }
  split.
  - intros p. change (get_pemis (x <| x_tok := t |>) p) with (get_pemis x p). destruct (decide (p = sp)) as [->|Hp]; [split; [done|apply S1]|]. rewrite Gc by done. apply S1.
  - intros ps Hps. change (x_log (x <| x_tok := t |>)) with (x_log x). destruct (decide (sp ∈ ps)) as [Hin|Hnin].
    + specialize (S2 ps Hps). assert (due K (x <| x_tok := t |>) ps = due K x ps - n); [|eapply Z.le_trans; [|apply Zplus_le_compat_r, B]; rewrite H0; lia].
      unfold due. rewrite (sumz_upd (fun p => gr K x p + get_pemis x p) (fun p => gr K (x <| x_tok := t |>) p + get_pemis (x <| x_tok := t |>) p) ps sp); [|done|done|].
      * change (get_pemis (x <| x_tok := t |>) sp) with (get_pemis x sp). lia.
      * intros p Hp. by rewrite Gc.
    + specialize (S2 (sp :: ps) ltac:(by constructor)). unfold due in *. simpl in S2; fold (sumz (fun p => gr K x p + get_pemis x p)) in S2.
      assert (sumz (fun p => gr K (x <| x_tok := t |>) p + get_pemis (x <| x_tok := t |>) p) ps = sumz (fun p => gr K x p + get_pemis x p) ps) as ->.
      { apply sumz_ext. intros p Hp. rewrite Gc; [done|]. intros ->. done. }
      specialize (S1 sp). lia.
Qed.

(** the emissions of a pool are handed over as an allowance *)
Lemma sol_gulp_pool K m c x p n x' : b_gulp_pool c x p = Ok (n, x') -> good K x -> sol K m x -> sol K m x'.
Proof.
  intros H Hgd [S1 S2]. unfold b_gulp_pool in H. mon H. subst.
  match goal with H : i128 _ = Ok _ |- _ => apply i128_ok in H as [-> _] end.
  match goal with H : approve _ _ _ _ _ _ _ = Ok _ |- _ => unfold approve in H; mon H; subst end.
  assert (bs_blnd (x_bs x) = K) as -> by (by apply Hgd).
  match goal with |- sol K m ?y => set (x' := y) end.
  assert (get_pemis x' p = 0 /\ forall q, q <> p -> get_pemis x' q = get_pemis x q) as [P1 P2].
  { unfold x', get_pemis. simpl. rewrite lookup_insert. split; [done|]. intros q Hq. by rewrite lookup_insert_ne. }
  assert (0 <= allowance c (x_tok x) K bs_addr p <= gr K x p) as Hal.
  { clear G1 G2; clearbody x'; destruct (S1 p) as [Hg _]. unfold allowance, gr in Hg |- *.  destruct (tk_allow _ !! _) as [[v live]|]; simpl in *; [|lia]. destruct (live <? c_seq c); lia. }
  assert (gr K x' p = allowance c (x_tok x) K bs_addr p + get_pemis x p /\ forall q, q <> p -> gr K x' q = gr K x q) as [Ga Gc].
  { unfold x', gr. simpl. rewrite lookup_insert. split; [done|]. intros q Hq. rewrite lookup_insert_ne; [done|]. intros [= ->]. done. }
  split.
  - intros q. destruct (decide (q = p)) as [->|Hq]; [rewrite P1, Ga; destruct (S1 p); lia|]. rewrite P2, Gc by done. apply S1.
  - intros ps Hps. specialize (S2 ps Hps). assert (sumz paid_ev (x_log x') = sumz paid_ev (x_log x)) as -> by (unfold x'; simpl; by rewrite !Z.add_0_l).
    change (bb K x') with (bb K x). assert (due K x' ps <= due K x ps); [|lia]. unfold due. apply sumz_le. intros q _.
    destruct (decide (q = p)) as [->|Hq]; [rewrite P1, Ga; lia|]. rewrite P2, Gc by done. lia.
Qed.

Lemma good_fixed K x x' : fixed x x' -> good K x -> good K x'.
Proof. intros (F1 & F2 & F3) Hg. unfold good. rewrite F1, F2, F3. exact Hg. Qed.
Lemma sol_xmove K m c self x x' : c_auth c bs_addr = false -> self <> bs_addr -> good K x ->
  xmove c self x x' -> sol K m x -> sol K m x' /\ fixed x x'.
Proof.
  intros Hau Hs Hb H S. destruct H.
  - split; [|done]. eapply sq_sol; [|exact S]. eapply sq_move; [|eassumption]. left. intros ->. destruct H; congruence.
  - split; [|done]. by eapply sol_spend.
  - unfold b_draw in H. mon H. subst. xfer. simpl in *. split; [|done].
    apply (sq_sol K m (set_pb x self pb)); [|apply (sq_sol K m x); [by apply sq_bs|exact S]].
    apply (sq_move K (set_pb x self pb) (bs_token (x_bs x)) bs_addr to amt); [right; by apply Hb|exact Hm].
  - unfold b_donate in H. mon H. subst. xfer. simpl in *. split; [|done]. 
    apply (sq_sol K m (x <| x_tok := t |>)); [by apply sq_bs|]. apply (sq_sol K m x); [|exact S]. eapply sq_move; [|exact Hm]. right. by apply Hb.
  - split; [by eapply sol_gulp_pool|]. unfold b_gulp_pool in H. mon H. by subst.
  - split; [|done]. eapply sq_sol; [|exact S]. split; [done|]. split; [done|]. split; [done|]. apply Z.le_refl.
Qed.
Lemma sol_xmoves K m c self x x' : c_auth c bs_addr = false -> self <> bs_addr -> good K x ->
  xmoves c self x x' -> sol K m x -> sol K m x'.
Proof.
  intros Ha Hs Hb H. induction H as [|x y z H _ IH]; [done|]. intros S. destruct (sol_xmove _ _ _ _ _ _ Ha Hs Hb H S) as [S' F].
  apply IH; [by eapply good_fixed|done].
Qed.

(** what the backstop receives may be counted *)
Lemma sq_sol_recv K m x x' : sq K x x' -> sol K m x -> sol K (m + (bb K x' - bb K x)) x'.
Proof.
  intros (P & L & A & B) [S1 S2].
  assert (forall p, gr K x' p = gr K x p) as G by (intros p; unfold gr; by rewrite A).
  assert (forall p, get_pemis x' p = get_pemis x p) as E by (intros p; unfold get_pemis; by rewrite P).
  split; [intros p; rewrite G, E; apply S1|]. intros ps Hn. specialize (S2 ps Hn).
  assert (due K x' ps = due K x ps) as -> by (apply sumz_ext; intros p _; by rewrite G, E). rewrite L. lia.
Qed.
Lemma sq_mint K x to n x' : em_mint x to n = Ok x' -> sq K x x'.
Proof.
  unfold em_mint. intros H. mon H. subst. match goal with H : mint _ _ _ _ = Ok _ |- _ => apply mint_spec in H as (Hn & Ha & _ & Hb) end.
  split; [done|]. split; [done|]. split; [intros p; simpl; by rewrite Ha|]. unfold bb. simpl. rewrite Hb. case_bool_decide; lia.
Qed.
Lemma sq_mints K l : forall x x', foldM (fun x p => em_mint x p.1 p.2) x l = Ok x' -> sq K x x'.
Proof.
  induction l as [|e l IH]; intros x x' H; cbn [foldM] in H; [injection H as <-; apply sq_refl|].
  apply bind_ok in H as (y & H1 & H2). eapply sq_trans; [by eapply sq_mint|by apply IH].
Qed.
Lemma sq_distribute K c x b n x' : em_execute_distribute c x b = Ok (n, x') -> sq K x x'.
Proof. unfold em_execute_distribute. intros H. mon H. subst. match goal with H : em_mint _ _ _ = Ok _ |- _ => by apply (sq_mint K) in H end. Qed.
Lemma sq_drop K c x l x' : em_drop c x l = Ok x' -> sq K x x'.
Proof. unfold em_drop. intros H. mon H. subst. match goal with H : foldM (fun x p => em_mint x p.1 p.2) _ _ = Ok _ |- _ => by apply (sq_mints K) in H end. Qed.

(** new emissions are recorded for the pools of the reward zone *)
Lemma alloc_pool_le evs ps : NoDup ps -> Forall (fun e => 0 <= to_pools e /\ 0 <= to_dep e) evs -> sumz (alloc_pool evs) ps <= sumz to_pools evs.
Proof.
  intros Hn. induction evs as [|e evs IH]; intros Hf; [simpl; by rewrite sumz_zero|]. apply Forall_cons in Hf as [[He _] Hf]. specialize (IH Hf).
  assert (sumz (alloc_pool (e :: evs)) ps = sumz (fun p => alloc_pool [e] p) ps + sumz (alloc_pool evs) ps) as ->.
  { rewrite <- sumz_add. apply sumz_ext. intros p _. apply (alloc_pool_app [e] evs p). }
  assert (sumz (fun p => alloc_pool [e] p) ps <= to_pools e); [|change (sumz to_pools (e :: evs)) with (to_pools e + sumz to_pools evs); lia].
  destruct e as [| q n d | | |]; try (rewrite sumz_zero; [done|by intros]). simpl in *.
  destruct (decide (q ∈ ps)) as [Hin|Hin].
  - rewrite (sumz_split _ ps q) by done. rewrite sumz_zero; [unfold alloc_pool; simpl; rewrite Z.eqb_refl; lia|].
    intros p Hp. apply elem_of_list_filter in Hp as [Hp _]. unfold alloc_pool. simpl. by rewrite (proj2 (Z.eqb_neq _ _) (not_eq_sym Hp)).
  - rewrite sumz_zero; [done|]. intros p Hp. unfold alloc_pool. simpl. rewrite (proj2 (Z.eqb_neq q p)); [done|]. intros ->. done.
Qed.
Lemma sol_gulp K m c x n x' now : b_gulp c x = Ok (n, x') -> binv now x -> sol K m x -> sol K m x'.
Proof.
  intros H Hb [S1 S2]. pose proof (b_gulp_fields _ _ _ _ H) as Hf. apply same_tok_bfields in Hf.
  destruct (b_gulp_spec _ _ _ _ _ H Hb) as (el & tot & evs & _ & _ & _ & _ & _ & A6 & A7 & _ & _ & A10 & _ & _ & _ & _ & A14).
  assert (forall p, gr K x' p = gr K x p) as G by (intros p; unfold gr; by rewrite Hf).
  assert (forall q, 0 <= alloc_pool evs q) as Hp.
  { intros q. unfold alloc_pool. apply sumz_nonneg. intros e He. rewrite Forall_forall in A10. specialize (A10 e He). destruct e; simpl in *; try lia. destruct (_ =? _); lia. }
  split; [intros p; rewrite G, A14; specialize (Hp p); destruct (S1 p); lia|]. intros ps Hn. specialize (S2 ps Hn).
  assert (due K x' ps = due K x ps + sumz (alloc_pool evs) ps) as ->.
  { unfold due. rewrite <- sumz_add. apply sumz_ext. intros p _. rewrite G, A14. lia. }
  pose proof (alloc_pool_le evs ps Hn A10) as Hle. unfold bb in *. rewrite Hf, A6, sumz_app, (sumz_perm _ (rev evs) evs) by (symmetry; apply Permutation_rev).
  assert (sumz paid_ev evs = sumz to_pools evs); [|lia]. apply sumz_ext. intros e He. unfold paid_ev. clear -A7 He.
  induction A7 as [|q ev' l evs Hev _ IH]; [set_solver|]. apply elem_of_cons in He as [->|He]; [|by apply IH]. destruct Hev as (? & ? & _ & _ & ->). simpl. lia.
Qed.
(** a depositor claims *)
Lemma sol_claim K m c x u ps t lp n x' : b_claim c x u ps t lp = Ok (n, x') -> emis_nonneg x -> users_nonneg x -> good K x -> sol K m x -> sol K m x'.
Proof.
  intros H He Hu Hg [S1 S2]. pose proof (claim_logged _ _ _ _ _ _ _ _ H) as (evs & L & F & Hn). pose proof (claim_quiet _ _ _ _ _ _ _ _ H) as (_ & P & _).
  assert (sumz paid_ev (x_log x') = sumz paid_ev (x_log x) + n) as HL.
  { rewrite L, sumz_app, (sumz_perm _ (rev evs) evs) by (symmetry; apply Permutation_rev). rewrite <- Hn.
    assert (sumz paid_ev evs = sumz claimed_ev evs); [|lia]. apply sumz_ext. intros e Hin. unfold paid_ev. clear -F Hin.
    induction F as [|q ev' l evs Hev _ IH]; [set_solver|]. apply elem_of_cons in Hin as [->|Hin]; [|by apply IH]. by destruct Hev as (? & ->). }
  assert (tk_allow (x_tok x') = tk_allow (x_tok x) /\ bb K x - n <= bb K x' /\ 0 <= n) as (A & B & N).
  { unfold b_claim in H. apply bind_ok in H as (? & _ & H). apply assert_ok in H as [_ H]. apply bind_ok in H as ([[cl cs] x1] & E1 & H).
    pose proof (claim_loop_fields _ _ _ _ _ E1) as (_ & Ei & Etk & Eb & Ht). cbn [snd] in Ei, Etk, Eb, Ht.
    apply (claim_loop _ _ _ []) in E1 as (_ & _ & Hn0 & _); [|done|done|set_solver|set_solver|done].
    destruct (0 <? cl) eqn:E0; [|injection H as <- <-; unfold bb; rewrite Ht; split; [done|lia]].
    apply assert_ok in H as [Hin H]. apply bind_ok in H as (t1 & M1 & H). apply bind_ok in H as (t2 & M2 & H). apply bind_ok in H as (x2 & D & H). injection H as <- <-.
    apply claim_deps_tok in D. simpl in D. unfold bb. rewrite D. rewrite Ht in M1. rewrite Ei in Hin. destruct (Hg Hin) as [Hb1 Hb2].
    apply mint_spec in M2 as (Hlp & A2 & _ & B2). apply tok_move_spec in M1 as (_ & A1 & _ & B1 & _). split; [congruence|]. split; [|lia].
    rewrite B2, B1. repeat case_bool_decide; lia. }
  assert (forall p, gr K x' p = gr K x p) as G by (intros p; unfold gr; by rewrite A).
  assert (forall p, get_pemis x' p = get_pemis x p) as E by (intros p; unfold get_pemis; by rewrite P).
  split; [intros p; rewrite G, E; apply S1|]. intros qs Hq. specialize (S2 qs Hq).
  assert (due K x' qs = due K x qs) as -> by (apply sumz_ext; intros p _; by rewrite G, E). lia.
Qed.

(** only an initialized emitter has a swap queued *)
Lemma swap_init w : reachable w -> em_swap (emitter w) <> None -> em_init (emitter w) = true.
Proof. intros (w0 & l & Hi & ->) Hs. destruct (em_swap (emitter (run w0 l))) as [sw|] eqn:E; [|done]. by apply swap_queued in E as [? _]. Qed.
Lemma sol_step K m w o out w' : reachable w -> exec w o = Ok (out, w') -> (em_init (emitter w) = true -> em_blnd (emitter w) = K) -> good K (w_ext w) ->
  sol K m (w_ext w) -> sol K (m + bs_received w o w') (w_ext w').
Proof.
  intros Hr H Hem Hg S. pose proof (reachable_ginv w Hr) as [Hb He]. destruct o; simpl in H.
  - apply assert_ok in H as [Hsg H]. apply andb_true_iff in Hsg as [Hsg _]. apply bind_ok in H as ([out0 x] & E & H). injection H as <- <-.
    assert (c_auth (ctx w signers) bs_addr = false) as Hau.
    { simpl. apply not_true_iff_false. intros Hm. apply mem_addr_elem in Hm. apply (signer_pos _ _ Hsg) in Hm. unfold bs_addr in Hm. lia. }
    assert (forall x1, sq K (w_ext w) x1 -> sol K (m + 0) x1) as Hsq by (intros x1 Hx; rewrite Z.add_0_r; by eapply sq_sol).
    assert (forall f : Addr, c_auth (ctx w signers) f = true -> f <> bs_addr) as Hne by (intros f Hf ->; congruence).
    destruct o; simpl in E.
    all: unfold ret_unit, ret_z in E; mon E; subst; cbn [bs_received].
    all: try match goal with |- sol _ _ (w_ext (_ <| w_ext := ?x |>)) => change (sol K m x) || change (w_ext (w <| w_ext := x |>)) with x end.
    all: idtac.
    + apply Hsq. unfold em_initialize in E0. mon E0. subst. by apply sq_bs.
    + match goal with H : em_distribute _ _ = Ok _ |- _ => unfold em_distribute in H; mon H end. unfold emitter, tokens in *. rewrite Hem by done.
      apply (sq_sol_recv K m (w_ext w)); [by eapply sq_distribute|done].
    + apply Hsq. unfold em_queue_swap in E0. mon E0. subst. by apply sq_bs.
    + apply Hsq. unfold em_cancel_swap in E0. mon E0. subst. by apply sq_bs.
    + match goal with H : em_swap_backstop _ _ = Ok _ |- _ => unfold em_swap_backstop in H; mon H end. subst.
      match goal with H : em_execute_distribute _ _ _ = Ok _ |- _ => pose proof (sq_distribute K _ _ _ _ _ H) as Hd; assert (em_init (emitter w) = true) as Hi by (apply swap_init; [done|]; unfold emitter; intros Hsw; by rewrite Hsw in *) end. unfold emitter, tokens in *. rewrite Hem by done. match goal with H : em_execute_distribute _ _ _ = Ok (_, ?y) |- _ => apply (sq_sol K _ y); [by apply sq_bs|exact (sq_sol_recv K m (w_ext w) _ Hd S)] end.
    + apply Hsq. by eapply sq_drop.
    + apply Hsq. unfold fa_initialize in E0. mon E0. subst. by apply sq_bs.
    + apply Hsq. unfold b_initialize in E0. mon E0. subst. by apply sq_bs.
    + match goal with H : b_deposit _ _ _ _ _ = Ok _ |- _ => unfold b_deposit in H; mon H end. subst. xfer.
      match goal with H : b_emissions _ _ _ _ _ _ _ = Ok (_, ?y) |- _ => apply emis_frame_b in H; apply Hsq; eapply sq_trans; [by apply sq_emis|] end.
      match goal with H : tok_move _ _ _ _ _ = Ok _ |- _ => apply (sq_move K) in H; [|left; by apply Hne]; eapply sq_trans; [exact H|] end. by apply sq_bs.
    + match goal with H : b_queue _ _ _ _ _ = Ok _ |- _ => unfold b_queue in H; mon H end. subst.
      match goal with H : b_emissions _ _ _ _ _ _ _ = Ok _ |- _ => apply emis_frame_b in H; apply Hsq; eapply sq_trans; [by apply sq_emis|] end. by apply sq_bs.
    + match goal with H : b_dequeue _ _ _ _ _ = Ok _ |- _ => unfold b_dequeue in H; mon H end. subst.
      match goal with H : b_emissions _ _ _ _ _ _ _ = Ok _ |- _ => apply emis_frame_b in H; apply Hsq; eapply sq_trans; [by apply sq_emis|] end. by apply sq_bs.
    + match goal with H : b_withdraw _ _ _ _ _ = Ok _ |- _ => unfold b_withdraw in H; mon H end. subst. xfer. apply Hsq.
      match goal with |- sq K _ (_ <| x_tok := ?t |>) => eapply (sq_trans K _ (w_ext w <| x_tok := t |>)); [|by apply sq_bs] end.
      eapply sq_move; [|exact Hm]. right. simpl in *. by apply Hg.
    + apply Hsq. unfold b_draw in E0. mon E0. subst. xfer.
      match goal with |- sq K _ (_ <| x_tok := ?t |>) => eapply (sq_trans K _ (w_ext w <| x_tok := t |>)); [|by apply sq_bs] end.
      eapply sq_move; [|exact Hm]. right. simpl in *. by apply Hg.
    + apply Hsq. unfold b_donate in E0. mon E0. subst. xfer. eapply sq_trans; [eapply sq_move; [|exact Hm]; left; by apply Hne|]. by apply sq_bs.
    + match goal with H : b_update_tkn_val _ _ = Ok _ |- _ => unfold b_update_tkn_val in H; mon H end. subst. apply Hsq. by apply sq_bs.
    + match goal with H : b_drop _ _ = Ok _ |- _ => unfold b_drop in H; mon H end. apply Hsq. by eapply sq_drop.
    + match goal with H : b_add_reward _ _ _ _ = Ok _ |- _ => unfold b_add_reward in H; mon H end. apply Hsq. destruct (_ <? _); mon E0; subst; by apply sq_bs.
    + rewrite Z.add_0_r. by eapply sol_gulp.
    + rewrite Z.add_0_r. by eapply sol_gulp_pool.
    + rewrite Z.add_0_r. eapply sol_claim; try done; [apply He|by eapply binv_users].
    + xfer. apply Hsq. eapply sq_move; [|exact Hm]. left. by apply Hne.
    + apply Hsq. match goal with H : approve _ _ _ _ _ _ _ = Ok _ |- _ => unfold approve in H; mon H; subst end.
      match goal with H : need_auth _ _ = Ok _ |- _ => apply need_auth_ok, Hne in H end.
      apply sq_tok; [|apply Z.le_refl]. intros p. simpl. rewrite lookup_insert_ne; [done|]. intros [= ? ? ?]. done.
    + rewrite Z.add_0_r. by eapply sol_spend.
    + apply Hsq. match goal with H : burn _ _ _ _ _ = Ok _ |- _ => unfold burn in H; mon H end. subst.
      match goal with H : need_auth _ _ = Ok _ |- _ => apply need_auth_ok, Hne in H end.
      apply sq_tok; [done|]. rewrite balance_set_balance. case_bool_decide as Hx; [|lia]. destruct Hx as [_ ->]. done.
    + apply Hsq. match goal with H : mint _ _ _ _ = Ok _ |- _ => apply mint_spec in H as (Hn & A & _ & B) end. apply sq_tok; [intros p; by rewrite A|]. rewrite B. case_bool_decide; lia.
  - apply assert_ok in H as [Hsg H]. apply andb_true_iff in Hsg as [Hsg _]. apply bind_ok in H as (p & Hp & H). apply bind_ok in H as ([out0 px] & E & H). injection H as <- <-. apply p_exec_xmoves in E. simpl in E. simpl. rewrite Z.add_0_r.
    assert (c_auth (ctx w signers) bs_addr = false) as Hau.
    { simpl. apply not_true_iff_false. intros Hm. apply mem_addr_elem in Hm. apply (signer_pos _ _ Hsg) in Hm. unfold bs_addr in Hm. lia. }
    eapply sol_xmoves; try done. destruct (w_pools w !! pool) as [q|] eqn:Eq; [|done]. pose proof (pools_neg w Hr _ _ Eq). unfold bs_addr. lia.
  - simpl. rewrite Z.add_0_r. apply assert_ok in H as [_ H]. apply bind_ok in H as (v & _ & H). destruct (w_pools w !! _); [done|]. mon H. subst. simpl. eapply sq_sol; [|exact S]. by apply sq_bs.
  - simpl. rewrite Z.add_0_r. apply assert_ok in H as [_ H]. destruct (w_pools w !! _); [done|]. mon H. by subst.
  - simpl. rewrite Z.add_0_r. mon H. by subst.
  - simpl. rewrite Z.add_0_r. mon H. subst. simpl. eapply sq_sol; [|exact S]. by apply sq_bs.
  - simpl. rewrite Z.add_0_r. mon H. subst. simpl. eapply sq_sol; [|exact S]. by apply sq_bs.
  - simpl. rewrite Z.add_0_r. destruct (w_pools w !! _); mon H; by subst.
  - simpl. rewrite Z.add_0_r. destruct (w_pools w !! _); mon H; by subst.
  - simpl. rewrite Z.add_0_r. mon H. by subst.
Qed.

(** what the log says pools were given *)
Lemma silent_pools evs : Forall (silent false) evs -> sumz to_pools evs = 0.
Proof. intros H. rewrite Forall_forall in H. apply sumz_zero; intros e He; specialize (H e He); by destruct e. Qed.
Lemma silent_pools' evs : Forall (silent true) evs -> sumz to_pools evs = 0.
Proof. intros H. rewrite Forall_forall in H. apply sumz_zero; intros e He; specialize (H e He); by destruct e. Qed.
Lemma dmoves_pools cl x x' : dmoves cl x x' -> sumz to_pools (x_log x') = sumz to_pools (x_log x).
Proof.
  induction 1 as [|x y z H _ IH]; [done|]. rewrite IH. clear IH. destruct H as [x x' (_ & _ & _ & _ & evs & -> & Hq)|c x p n x' H|x x' tok to n Hb Hl _].
  - rewrite !sumz_app. destruct cl; [rewrite (silent_pools' evs Hq)|rewrite (silent_pools evs Hq)]; lia.
  - apply gulp_pool_spec in H as (_ & _ & _ & _ & _ & -> & _). simpl. lia.
  - rewrite Hl. simpl. lia.
Qed.
Lemma pools_step w o out w' : reachable w -> exec w o = Ok (out, w') ->
  10 * sumz to_pools (x_log (w_ext w')) <= 10 * sumz to_pools (x_log (w_ext w)) + 3 * gulped w o w'.
Proof.
  intros Hr H. pose proof (exec_dmoves _ _ _ _ H) as Hd.
  destruct o as [sg o|sg a o|sg ad sa orc ra mp|a|dt ds|orc|n|a t u|a r|];
    try (simpl in Hd; apply dmoves_pools in Hd; simpl; lia).
  destruct o; try (simpl in Hd; apply dmoves_pools in Hd; simpl; lia); clear Hd; simpl gulped; unfold returned; rewrite ?H;
    unfold exec in H; mon H; simpl in E; unfold ret_unit, ret_z in E; mon E; simpl.
  - unfold b_initialize in E0. mon E0. simpl. lia.
  - apply add_reward_fields in E0 as (_ & _ & _ & ->). lia.
  - destruct (b_gulp_spec _ _ _ _ _ E0 (reachable_binv _ Hr)) as (el & tot & evs & _ & _ & _ & _ & _ & A6 & A7 & _ & A9 & _).
    rewrite A6, !sumz_app, !(sumz_perm _ (rev evs) evs) by (symmetry; apply Permutation_rev). lia.
Qed.
Lemma pools_run w0 l : initial w0 -> 10 * sumz to_pools (x_log (w_ext (run w0 l))) <= 3 * sumh gulped w0 l.
Proof.
  intros Hi. induction l as [|o l IH] using rev_ind.
  - destruct Hi as (now & seq & t & or & lp & -> & _). done.
  - rewrite !sumh_app, run_snoc. simpl. rewrite !Z.add_0_r.
    assert (reachable (run w0 l)) as Hr by (by exists w0, l).
    destruct (exec (run w0 l) o) as [[out w']|] eqn:E.
    + assert (step (run w0 l) o = w') as -> by (unfold step; by rewrite E). pose proof (pools_step _ _ _ _ Hr E). lia.
    + assert (step (run w0 l) o = run w0 l) as -> by (unfold step; by rewrite E).
      assert (gulped (run w0 l) o (run w0 l) = 0) as ->; [|lia]. destruct o as [? []| | | | | | | | |]; simpl; try done. unfold returned. by rewrite E.
Qed.

Lemma sol_run K w0 l : initial w0 -> (em_init (emitter (run w0 l)) = true -> em_blnd (emitter (run w0 l)) = K) -> good K (w_ext (run w0 l)) ->
  sol K (sumh bs_received w0 l) (w_ext (run w0 l)).
Proof.
  intros Hi. induction l as [|o l IH] using rev_ind; intros Hem Hg.
  - destruct Hi as (now & seq & t & or & lp & -> & _ & _ & [Hb Ha] & _). match goal with |- context [run ?w []] => change (run w []) with w end. change (sumh bs_received ?w []) with 0.
    assert (forall p, gr K (w_ext (genesis now seq t or lp)) p = 0 /\ get_pemis (w_ext (genesis now seq t or lp)) p = 0) as Hz.
    { intros p. split; [|unfold get_pemis; simpl; by rewrite lookup_empty]. unfold gr. simpl. destruct (tk_allow t !! (K, bs_addr, p)) as [[n lv]|] eqn:E; [|done].
      apply Ha in E as [_ E]. unfold bs_addr in E. lia. }
    split; [intros p; destruct (Hz p) as [-> ->]; lia|]. intros ps _. unfold due. rewrite sumz_zero by (intros p _; destruct (Hz p) as [-> ->]; lia).
    unfold bb. simpl. assert (0 <= balance t K bs_addr); [|lia]. unfold balance. destruct (tk_bal t !! (K, bs_addr)) eqn:E; [apply Hb in E; simpl; lia|done].
  - rewrite sumh_app, run_snoc in *. simpl. rewrite Z.add_0_r. set (w := run w0 l) in *.
    assert (reachable w) as Hr by (by exists w0, l). pose proof (C61_initialized_once w [o]) as (C1 & _ & C2 & _). cbv zeta in C1, C2. change (run w [o]) with (step w o) in C1, C2.
    assert (em_init (emitter w) = true -> em_blnd (emitter w) = K) as Hem'. { intros Hx. destruct (C1 Hx) as [C3 C4]. unfold emitter in *. rewrite <- C4. by apply Hem. }
    assert (good K (w_ext w)) as Hg'. { intros Hx. destruct (C2 Hx) as (C3 & C4 & C5 & _). destruct (Hg C3) as [C6 C7]. split; congruence. }
    specialize (IH Hem' Hg'). unfold step in *. destruct (exec w o) as [[out w']|] eqn:E; [by eapply sol_step|].
    assert (bs_received w o w = 0) as ->; [|by rewrite Z.add_0_r]. destruct o as [? []| | | | | | | | |]; simpl; lia.
Qed.

Lemma sumz_sub {A} (f g : A -> Z) l : sumz (fun a => f a - g a) l = sumz f l - sumz g l.
Proof. induction l as [|a l IH]; simpl; [done|]. fold (sumz (fun a => f a - g a) l). fold (sumz f l). fold (sumz g l). lia. Qed.
Lemma sumz_incl (f : Z -> Z) l l' : NoDup l -> NoDup l' -> (forall a, a ∈ l -> a ∈ l') -> (forall a, a ∈ l' -> 0 <= f a) -> sumz f l <= sumz f l'.
Proof.
  revert l'. induction l as [|a l IH]; intros l' Hn Hn' Hi Hp; [simpl; by apply sumz_nonneg|]. apply NoDup_cons in Hn as [Ha Hn].
  rewrite (sumz_split f l' a) by (try done; apply Hi; left). simpl. fold (sumz f l). apply Z.add_le_mono_l. apply IH; [done|by apply NoDup_filter| |].
  - intros b Hb. apply elem_of_list_filter. split; [intros ->; done|]. apply Hi. by right.
  - intros b Hb. apply elem_of_list_filter in Hb as [_ Hb]. by apply Hp.
Qed.

(** ** C73: the backstop holds the BLND it owes *)
(** allowance of [tok] granted by [owner] to [spender] and not spent, expired or not *)
Definition granted (w : World) (tok owner spender : Addr) : Z :=
  match tk_allow (x_tok (w_ext w)) !! (tok, owner, spender) with Some (n, _) => n | None => 0 end.
(** emissions recorded for pool [p] and not handed over yet *)
Definition recorded (w : World) (p : Addr) : Z := get_pemis (w_ext w) p.
(** emissions allocated to the depositors of pool [p] and not claimed yet *)
Definition unclaimed (w : World) (p : Addr) : Z := alloc_dep (x_log (w_ext w)) p - claimed_by (x_log (w_ext w)) p.

(** In every history of consistently deployed contracts, in which the backstop is not replaced and later made current again, and depositors
    claim for themselves (see C44 and C48): at all times the BLND held by the backstop covers, for all pools together, what pools may take
    (unspent allowances), what is still recorded for them, and what their depositors have not claimed. *)
Theorem C73_backstop_holds_it : forall w0 l ps qs,
  initial w0 -> never_back w0 l -> Forall (fun o => own_claim o = true) l -> NoDup ps -> NoDup qs ->
  let w := run w0 l in let blnd := bs_blnd (x_bs (w_ext w)) in
  bs_init (x_bs (w_ext w)) = true -> em_blnd (x_em (w_ext w)) = blnd -> bs_token (x_bs (w_ext w)) <> blnd ->
  (forall p, 0 <= granted w blnd bs_addr p /\ 0 <= recorded w p /\ 0 <= unclaimed w p) /\
  sumz (fun p => granted w blnd bs_addr p + recorded w p) ps + sumz (unclaimed w) qs <= balance (x_tok (w_ext w)) blnd bs_addr.
Proof.
  intros w0 l ps qs Hi Hnb Hoc Hn Hq w blnd Hb Hem Hne.
  assert (sol blnd (sumh bs_received w0 l) (w_ext w)) as [S1 S2].
  { apply sol_run; [done|by intros _|]. intros _. done. }
  pose proof (C48_allocated_at_most_minted w0 l Hi Hnb) as H48. destruct (C44_claimed_at_most_allocated w0 l Hi Hoc) as [H44 _]. fold w in H44.
  destruct (log_run w0 l Hi) as [L1 L2]. pose proof (pools_run w0 l Hi) as L3. fold w in L1, L2, L3.
  assert (forall p, granted w blnd bs_addr p = gr blnd (w_ext w) p) as Hgr.
  { intros p. unfold granted, gr. by destruct (tk_allow _ !! _) as [[? ?]|]. }
  split; [intros p; rewrite Hgr; destruct (S1 p); specialize (H44 p); unfold recorded, unclaimed; lia|].
  specialize (S2 ps Hn).
  assert (sumz (fun p => granted w blnd bs_addr p + recorded w p) ps = due blnd (w_ext w) ps) as -> by (apply sumz_ext; intros p _; by rewrite Hgr).
  assert (sumz paid_ev (x_log (w_ext w)) = sumz to_pools (x_log (w_ext w)) + sumz claimed_ev (x_log (w_ext w))) as Hs by (rewrite <- sumz_add; by apply sumz_ext).
  assert (sumz (unclaimed w) qs <= sumz to_dep (x_log (w_ext w)) - sumz claimed_ev (x_log (w_ext w))); [|unfold bb in S2; lia].
  set (lg := x_log (w_ext w)) in *. set (D := remove_dups (qs ++ map ev_pool lg)).
  assert (NoDup D) as HD by apply NoDup_remove_dups. assert (forall e, e ∈ lg -> ev_pool e ∈ D) as Hin.
  { intros e He. unfold D. rewrite elem_of_remove_dups. apply elem_of_app. right. by apply elem_of_list_fmap_1. }
  rewrite <- (sum_by_pool ev_pool claimed_ev lg D), <- (sum_by_pool ev_pool to_dep lg D) by done.
  assert (sumz (unclaimed w) D = sumz (fun p => sumz (fun e => if ev_pool e =? p then to_dep e else 0) lg) D - sumz (fun p => sumz (fun e => if ev_pool e =? p then claimed_ev e else 0) lg) D) as <-.
  { rewrite <- sumz_sub. apply sumz_ext. intros p _. unfold unclaimed, alloc_dep, claimed_by. fold lg.
    f_equal; apply sumz_ext; intros e _; destruct e; cbn [ev_pool claimed_ev to_dep]; try done; by destruct (Z.eqb _ _). }
  apply sumz_incl; [done|done|intros p Hp; unfold D; rewrite elem_of_remove_dups; set_solver|]. intros p _. unfold unclaimed. fold lg. specialize (H44 p). lia.
Qed.
