(** * Properties of the backstop: C36 - C42, C46 *)
From Verif Require Import Base Types Token Emitter Factory Backstop PoolReserve PoolUser PoolHealth
  PoolAuction PoolSubmit PoolEmis PoolAdmin World Facts XMove Spec FrameFacts PoolFrame PoolCfg BackMoves BackInv BackEmis.

(** ** Observers (the getters [user_balance] and [pool_data] of the backstop) *)
Definition user_bal (w : World) (p u : Addr) : UserBal := get_ub (w_ext w) p u.
Definition pool_bal (w : World) (p : Addr) : PoolBal := get_pb (w_ext w) p.
Definition queued_of (w : World) (p u : Addr) : Z := sumz q_amount (ub_q4w (user_bal w p u)).
(** one day, in seconds *)
Definition days (n : Z) : Z := n * 24 * 60 * 60.

(** ** The joint invariant *)
Lemma binv_mono now now' x : now <= now' -> binv now x -> binv now' x.
Proof.
  intros Hn [H1 H2 H3]. constructor; [|done|done]. intros p u b Hb. apply H1 in Hb as (A & B & C & D).
  split; [done|]. split; [|done]. eapply Forall_impl; [exact B|]. simpl. intros q [? ?]. lia.
Qed.
Lemma einv_mono now now' x : now <= now' -> einv now x -> einv now' x.
Proof. intros Hn (A & B & C). split; [done|]. split; [done|]. intros p d Hd. apply C in Hd. lia. Qed.
Lemma bmoves_binv c l x x' : bmoves c l x x' -> binv (c_now c) x -> binv (c_now c) x'.
Proof. induction 1; [done|]. intros. eauto using bmove_binv. Qed.
Lemma emoves_einv c ok em cl x x' : emoves c ok em cl x x' -> einv (c_now c) x -> einv (c_now c) x'.
Proof. induction 1; [done|]. intros. eauto using emove_einv. Qed.
Lemma binv_free now x : binv now x -> free_ok x.
Proof.
  intros H. split; [by eapply binv_users|]. split; [|intros p; by apply (binv_pool _ _ p H)].
  intros p. destruct (bi_pools _ _ H p) as (_ & -> & ->). lia.
Qed.

Lemma exec_now w o out w' : exec w o = Ok (out, w') -> w_now w <= w_now w'.
Proof.
  unfold exec. intros H. destruct o; mon H; simpl; try lia.
  all: destruct (w_pools w !! _); mon H; simpl; lia.
Qed.

Definition ginv (w : World) : Prop := binv (w_now w) (w_ext w) /\ einv (w_now w) (w_ext w).
Lemma ginv_init w : initial w -> ginv w.
Proof.
  intros (now & seq & t & o & lp & -> & Hn & _). unfold genesis. split.
  - constructor; simpl.
    + intros p u b. by rewrite lookup_empty.
    + intros p. unfold get_pb, usum. simpl. rewrite lookup_empty, map_to_list_empty. done.
    + intros _ p. unfold get_pb. simpl. by rewrite lookup_empty.
  - split; [|split]; simpl.
    + split; [|split]; simpl; intros *; by rewrite lookup_empty.
    + intros p _. simpl. setoid_rewrite lookup_empty. done.
    + intros p d. simpl. by rewrite lookup_empty.
Qed.
Lemma reachable_ginv w : reachable w -> ginv w.
Proof.
  revert w. apply reach_inv'; [apply ginv_init|]. intros w o out w' Hr [Hb He] H.
  destruct (exec_bmoves _ _ _ _ H Hr (proj1 He) (binv_users _ _ Hb)) as (l & Hl & _).
  pose proof (exec_emoves _ _ _ _ H (binv_free _ _ Hb) He (fun p => binv_pool _ _ p Hb)) as Hm.
  pose proof (exec_now _ _ _ _ H). split.
  - eapply binv_mono; [exact H0|]. by eapply (bmoves_binv _ _ _ _ Hl).
  - eapply einv_mono; [exact H0|]. by eapply (emoves_einv _ _ _ _ _ _ Hm).
Qed.
Lemma reachable_binv w : reachable w -> binv (w_now w) (w_ext w).
Proof. intros H. by apply reachable_ginv. Qed.
(** the moves of a transaction of a reachable world *)
Lemma exec_acts w o out w' : exec w o = Ok (out, w') -> reachable w ->
  exists l, bmoves (ctx w (sig_of o)) l (w_ext w) (w_ext w') /\ acts_of o out l.
Proof. intros H Hr. destruct (reachable_ginv w Hr) as [Hb He]. eapply exec_bmoves; [done|done|by destruct He|by eapply binv_users]. Qed.

(** ** C36: shares are conserved *)
Lemma usum_cover f x p l :
  f (mkUserBal 0 []) = 0 -> NoDup l -> (forall u, get_ub x p u <> mkUserBal 0 [] -> u ∈ l) ->
  usum f x p = sumz (fun u => f (get_ub x p u)) l.
Proof.
  intros H0 Hn Hc. unfold usum.
  set (K := map (fun e => snd (fst e)) (filter (fun e => fst (fst e) = p) (map_to_list (bs_user (x_bs x))))).
  assert (forall e, e ∈ filter (fun e => fst (fst e) = p) (map_to_list (bs_user (x_bs x))) -> fst (fst e) = p /\ bs_user (x_bs x) !! (p, snd (fst e)) = Some (snd e)) as Hin.
  { intros [[q u] b] He. apply elem_of_list_filter in He as [Hq He]. simpl in *. subst. by apply elem_of_map_to_list in He. }
  transitivity (sumz (fun u => f (get_ub x p u)) K).
  - unfold K. rewrite sumz_map. clear Hc K Hn. revert Hin. generalize (map_to_list (bs_user (x_bs x))). intros m.
    induction m as [|e m IH]; simpl; intros Hin; [done|]. rewrite filter_cons in *. destruct (decide (fst (fst e) = p)) as [He|He]; simpl.
    + rewrite IH by (intros; apply Hin; set_solver). destruct (Hin e ltac:(set_solver)) as [_ Hl].
      rewrite (proj2 (Z.eqb_eq _ _) He). unfold get_ub at 2. by rewrite Hl.
    + rewrite IH by (intros; by apply Hin). rewrite (proj2 (Z.eqb_neq _ _) He). lia.
  - apply sumz_cover; [|done| |].
    + unfold K. apply NoDup_fmap_2_strong; [|apply NoDup_filter, NoDup_map_to_list].
      intros [[q u] b] [[q' u'] b'] H1 H2 Hu. apply Hin in H1 as [E1 L1], H2 as [E2 L2]. simpl in *. subst. rewrite L1 in L2. by injection L2 as ->.
    + intros u Hu. destruct (bs_user (x_bs x) !! (p, u)) as [b|] eqn:E; [|unfold get_ub; by rewrite E].
      exfalso. apply Hu. unfold K. apply elem_of_list_fmap. exists ((p, u), b). split; [done|].
      apply elem_of_list_filter. split; [done|]. by apply elem_of_map_to_list.
    + intros u Hu. destruct (decide (f (get_ub x p u) = 0)) as [Hz|Hne]; [done|]. exfalso. apply Hu, Hc. intros E. by rewrite E in Hne.
Qed.

(** For any list of distinct users that includes every user with a balance, the
    pool's shares are the sum of their free and queued shares, its queued total is
    the sum of all their queue entries, and queued never exceeds total. *)
Theorem C36_share_conservation w p users :
  reachable w -> NoDup users -> (forall u, user_bal w p u <> mkUserBal 0 [] -> u ∈ users) ->
  pb_shares (pool_bal w p) = sumz (fun u => ub_shares (user_bal w p u) + queued_of w p u) users /\
  pb_q4w (pool_bal w p) = sumz (fun u => queued_of w p u) users /\
  0 <= pb_q4w (pool_bal w p) <= pb_shares (pool_bal w p).
Proof.
  intros Hr Hn Hc. pose proof (reachable_binv w Hr) as Hb. destruct (bi_pools _ _ Hb p) as (_ & Hs & Hq).
  unfold pool_bal, queued_of, user_bal in *. rewrite sumz_add.
  rewrite (usum_cover ub_shares _ _ users) in Hs by done. rewrite (usum_cover queued _ _ users) in Hs, Hq by done.
  split; [exact Hs|]. split; [exact Hq|]. apply (binv_pool _ _ p Hb).
Qed.
(** such a list of users always exists *)
Theorem C36_users_listable w p : exists users, NoDup users /\ forall u, user_bal w p u <> mkUserBal 0 [] -> u ∈ users.
Proof.
  exists (remove_dups (map (fun e => snd (fst e)) (map_to_list (bs_user (x_bs (w_ext w)))))). split; [apply NoDup_remove_dups|].
  intros u Hu. apply elem_of_remove_dups. unfold user_bal, get_ub in Hu. destruct (bs_user _ !! (p, u)) as [b|] eqn:E; [|done].
  apply elem_of_list_fmap. exists ((p, u), b). split; [done|]. by apply elem_of_map_to_list.
Qed.

(** ** C37: deposits are backed *)

(** the sum of the token balances recorded for all pools *)
Definition recorded_tokens (w : World) : Z :=
  sumz (fun e => pb_tokens (snd e)) (map_to_list (bs_pool (x_bs (w_ext w)))).
(** LP tokens held by the backstop contract *)
Definition lp_held (w : World) : Z := balance (x_tok (w_ext w)) (bs_token (x_bs (w_ext w))) bs_addr.

(** token balances are never negative *)
Definition tok_nonneg (t : Tok) : Prop := forall k a, 0 <= balance t k a.
Lemma tok_move_nonneg t k f to n t' : tok_move t k f to n = Ok t' -> tok_nonneg t -> tok_nonneg t'.
Proof.
  intros H Ht q a. apply tok_move_spec in H as (H1 & _ & _ & -> & _). pose proof (Ht q a).
  repeat case_bool_decide; destruct_and?; subst; lia.
Qed.
Lemma mint_nonneg t k to n t' : mint t k to n = Ok t' -> tok_nonneg t -> tok_nonneg t'.
Proof. intros H Ht q a. apply mint_spec in H as (H1 & _ & _ & ->). pose proof (Ht q a). case_bool_decide; lia. Qed.
Lemma transfer_nonneg c t k f to n t' : transfer c t k f to n = Ok t' -> tok_nonneg t -> tok_nonneg t'.
Proof. intros H. apply transfer_move in H as [_ H]. by eapply tok_move_nonneg. Qed.
Lemma transfer_from_nonneg c t k s f to n t' : transfer_from c t k s f to n = Ok t' -> tok_nonneg t -> tok_nonneg t'.
Proof.
  intros H Ht. apply transfer_from_spec in H as (_ & _ & _ & _ & t1 & Hb & Hm). eapply tok_move_nonneg; [exact Hm|].
  intros q a. unfold balance. rewrite Hb. apply Ht.
Qed.
Lemma em_mint_nonneg x to n x' : em_mint x to n = Ok x' -> tok_nonneg (x_tok x) -> tok_nonneg (x_tok x').
Proof. unfold em_mint. intros H. mon H. simpl. by eapply mint_nonneg. Qed.
Lemma distribute_nonneg c x b n x' : em_execute_distribute c x b = Ok (n, x') -> tok_nonneg (x_tok x) -> tok_nonneg (x_tok x').
Proof. unfold em_execute_distribute. intros H. mon H. intros Ht. by eapply em_mint_nonneg. Qed.
Lemma drop_nonneg c x l x' : em_drop c x l = Ok x' -> tok_nonneg (x_tok x) -> tok_nonneg (x_tok x').
Proof.
  unfold em_drop. intros H. mon H. intros Ht. simpl.
  match goal with E : foldM (fun x p => em_mint _ _ _) _ _ = Ok _ |- _ => revert E end.
  apply (foldM_inv (fun x => tok_nonneg (x_tok x))); [|done]. intros s a s' _ Hs E'. by eapply em_mint_nonneg.
Qed.
Lemma draw_nonneg c x p n t x' : b_draw c x p n t = Ok x' -> tok_nonneg (x_tok x) -> tok_nonneg (x_tok x').
Proof. unfold b_draw. intros H. mon H. simpl. by eapply transfer_nonneg. Qed.
Lemma donate_nonneg c x p n t x' : b_donate c x p n t = Ok x' -> tok_nonneg (x_tok x) -> tok_nonneg (x_tok x').
Proof. unfold b_donate. intros H. mon H. simpl. by eapply transfer_nonneg. Qed.
Lemma gulp_pool_tok c x p n x' : b_gulp_pool c x p = Ok (n, x') -> tok_nonneg (x_tok x) -> tok_nonneg (x_tok x').
Proof. unfold b_gulp_pool. intros H. mon H. simpl. match goal with E : approve _ _ _ _ _ _ _ = Ok _ |- _ => unfold approve in E; mon E end. done. Qed.
Lemma xmoves_nonneg c self x x' : xmoves c self x x' -> tok_nonneg (x_tok x) -> tok_nonneg (x_tok x').
Proof.
  induction 1 as [x|x y z H _ IH]; [done|]. intros Hx. apply IH. destruct H.
  - by eapply tok_move_nonneg.
  - by eapply transfer_from_nonneg.
  - by eapply draw_nonneg.
  - by eapply donate_nonneg.
  - by eapply gulp_pool_tok.
  - done.
Qed.
Lemma emis_frame_tok x x' : emis_frame x x' -> x_tok x' = x_tok x.
Proof. by intros (e & u & ->). Qed.
Lemma claim_loop_tok c u ps n m x n' m' x' : foldM (claim_one c u) (n, m, x) ps = Ok (n', m', x') -> x_tok x' = x_tok x.
Proof.
  revert n m x. induction ps as [|p ps IH]; simpl; intros n m x H; [by mon H|].
  apply bind_ok in H as ([[n1 m1] x1] & H1 & H). unfold claim_one in H1.
  apply bind_ok in H1 as ([a x2] & E & H1). mon1 H1. apply Ok_inj in H1. simplify_eq. apply IH in H. simpl in H.
  rewrite H. by eapply emis_frame_tok, emis_frame_b.
Qed.
Lemma gulp_tok c x n x' : b_gulp c x = Ok (n, x') -> x_tok x' = x_tok x.
Proof. intros H. by apply b_gulp_fields in H as (_ & _ & _ & _ & H). Qed.

Lemma exec_tok_nonneg w o out w' : exec w o = Ok (out, w') -> tok_nonneg (x_tok (w_ext w)) -> tok_nonneg (x_tok (w_ext w')).
Proof.
  intros H Ht. unfold exec in H. destruct o as [sg o|sg a o|sg ad sa orc ra mp|b|dt ds|orc|n|b t u|b r|].
  2:{ mon H. simpl. apply p_exec_xmoves in E0. simpl in E0. by eapply xmoves_nonneg. }
  2:{ mon H. destruct (w_pools w !! _); [done|]. by mon H. }
  2:{ mon H. destruct (w_pools w !! _); [done|]. by mon H. }
  2-7: by mon H.
  mon H. simpl in *.
  destruct o; simpl in E; unfold ret_unit, ret_z in E; mon E; simpl.
  - unfold em_initialize in E0. by mon E0.
  - unfold em_distribute in E0. mon E0. by eapply distribute_nonneg.
  - unfold em_queue_swap in E0. by mon E0.
  - unfold em_cancel_swap in E0. by mon E0.
  - unfold em_swap_backstop in E0. mon E0. simpl. by eapply distribute_nonneg.
  - by eapply drop_nonneg.
  - unfold fa_initialize in E0. by mon E0.
  - unfold b_initialize in E0. by mon E0.
  - unfold b_deposit in E0. mon E0. simpl.
    match goal with E : transfer _ _ _ _ _ _ = Ok _ |- _ => eapply transfer_nonneg; [exact E|] end.
    match goal with E : b_emissions _ _ _ _ _ _ _ = Ok _ |- _ => by rewrite (emis_frame_tok _ _ (emis_frame_b _ _ _ _ _ _ _ _ _ E)) end.
  - unfold b_queue in E0. mon E0. simpl.
    match goal with E : b_emissions _ _ _ _ _ _ _ = Ok _ |- _ => by rewrite (emis_frame_tok _ _ (emis_frame_b _ _ _ _ _ _ _ _ _ E)) end.
  - unfold b_dequeue in E0. mon E0. simpl.
    match goal with E : b_emissions _ _ _ _ _ _ _ = Ok _ |- _ => by rewrite (emis_frame_tok _ _ (emis_frame_b _ _ _ _ _ _ _ _ _ E)) end.
  - unfold b_withdraw in E0. mon E0. simpl.
    match goal with E : transfer _ _ _ _ _ _ = Ok _ |- _ => eapply transfer_nonneg; [exact E|] end. done.
  - by eapply draw_nonneg.
  - by eapply donate_nonneg.
  - unfold b_update_tkn_val in E0. by mon E0.
  - unfold b_drop in E0. mon E0. by eapply drop_nonneg.
  - unfold b_add_reward in E0. mon E0. destruct (_ <? _); by mon E0.
  - by rewrite (gulp_tok _ _ _ _ E0).
  - by eapply gulp_pool_tok.
  - unfold b_claim in E0. mon1 E0. mon1 E0. apply bind_ok in E0 as ([[n1 m1] x1] & H1 & H2).
    apply claim_loop_tok in H1. destruct (0 <? n1); mon H2; [|by rewrite H1].
    match goal with E : foldM (claim_dep _ _ _ _) _ _ = Ok _ |- _ => revert E end.
    apply (foldM_inv (fun x => tok_nonneg (x_tok x))).
    + intros s a s' _ Hs E'. unfold claim_dep in E'. by mon E'.
    + simpl. eapply mint_nonneg; [eassumption|]. eapply tok_move_nonneg; [eassumption|]. by rewrite H1.
  - by eapply transfer_nonneg.
  - unfold approve in E0. by mon E0.
  - by eapply transfer_from_nonneg.
  - unfold burn in E0. mon E0. intros k a. rewrite balance_set_balance. case_bool_decide; [lia|apply Ht].
  - by eapply mint_nonneg.
Qed.
Lemma reachable_tok_nonneg w : reachable w -> tok_nonneg (x_tok (w_ext w)).
Proof.
  revert w. apply reach_inv.
  - intros w (now & seq & t & o & lp & -> & _ & _ & [H _]) k a. simpl. unfold balance. destruct (tk_bal t !! (k, a)) eqn:E; [|done]. by apply H in E as [? _].
  - intros w o out w' Ht H. by eapply exec_tok_nonneg.
Qed.

#[export] Instance BAct_eqdec : EqDecision BAct. Proof. solve_decision. Defined.
(** change of the recorded tokens *)
Definition tdelta (a : BAct) : Z :=
  match a with
  | ADep _ _ n _ => n | AWd _ _ _ r => - r | ADrw _ n => - n | ADon _ n => n | ACred _ _ d _ => d | _ => 0
  end.
Definition psum (x : Ext) : Z := sumz (fun e => pb_tokens (snd e)) (map_to_list (bs_pool (x_bs x))).
Lemma psum_upd x x' p pb : bs_pool (x_bs x') = <[p := pb]> (bs_pool (x_bs x)) -> psum x' = psum x + pb_tokens pb - pb_tokens (get_pb x p).
Proof. intros H. unfold psum. rewrite H, sumz_gmap_insert. simpl. unfold get_pb. destruct (bs_pool _ !! p); simpl; lia. Qed.
Lemma bmove_psum c a x x' : bmove c a x x' -> psum x' = psum x + tdelta a.
Proof.
  intros [H _ _ _ _]. unfold bal_eff in H.
  destruct a; simpl; repeat match goal with H : exists _, _ |- _ => destruct H | H : _ /\ _ |- _ => destruct H end;
  repeat match goal with
    | H : pb_deposit _ _ _ = Ok _ |- _ => apply pb_deposit_ok in H
    | H : pb_withdraw _ _ _ = Ok _ |- _ => apply pb_withdraw_ok in H as (H & _)
    | H : pb_queue _ _ = Ok _ |- _ => apply pb_queue_ok in H
    | H : pb_dequeue _ _ = Ok _ |- _ => apply pb_dequeue_ok in H as (H & _)
    | H : same_bal _ _ |- _ => destruct H | H : upd_bal _ _ _ _ _ _ |- _ => destruct H | H : upd_pool _ _ _ _ |- _ => destruct H
    end; subst;
  match goal with
  | H : bs_pool _ = <[_ := _]> _ |- _ => rewrite (psum_upd _ _ _ _ H); simpl; lia
  | H : bs_pool _ = bs_pool _ |- _ => unfold psum; rewrite H; lia
  end.
Qed.
Lemma bmoves_held c l x x' : bmoves c l x x' -> Forall (fun a => a <> AInit) l -> allow_ok x -> bs_token (x_bs x) <> bs_blnd (x_bs x) ->
  held x' - held x >= sumz hdelta l /\ psum x' - psum x = sumz tdelta l /\ allow_ok x' /\ bs_init (x_bs x') = bs_init (x_bs x).
Proof.
  induction 1 as [x|a l x y z Hm _ IH]; intros Hf Ha Hne; simpl; [split; [lia|]; split; [lia|]; done|].
  inversion Hf as [|? ? Hai Hf']; subst. pose proof (bmove_psum _ _ _ _ Hm) as Hp. destruct Hm as [Hbal Hi Hal Hh _].
  assert (bs_init (x_bs y) = bs_init (x_bs x) /\ bs_token (x_bs y) = bs_token (x_bs x) /\ bs_blnd (x_bs y) = bs_blnd (x_bs x)) as (I1 & I2 & I3) by (by destruct a).
  assert (held y >= held x + hdelta a) by (destruct a; auto; done).
  destruct IH as (A & B & C & D); [done|auto|by rewrite I2, I3|]. split; [lia|]. split; [lia|]. split; [done|]. congruence.
Qed.
Lemma bmoves_fixed c l x x' : bmoves c l x x' -> Forall (fun a => a <> AInit) l ->
  bs_init (x_bs x') = bs_init (x_bs x) /\ bs_token (x_bs x') = bs_token (x_bs x) /\ bs_blnd (x_bs x') = bs_blnd (x_bs x) /\ (allow_ok x -> allow_ok x').
Proof.
  induction 1 as [x|a l x y z Hm _ IH]; intros Hf; [done|].
  inversion Hf as [|? ? Hai Hf']; subst. destruct Hm as [_ Hi Hal _ _].
  assert (bs_init (x_bs y) = bs_init (x_bs x) /\ bs_token (x_bs y) = bs_token (x_bs x) /\ bs_blnd (x_bs y) = bs_blnd (x_bs x)) as (I1 & I2 & I3) by (by destruct a).
  destruct (IH Hf') as (A & B & C & D). split; [congruence|]. split; [congruence|]. split; [congruence|]. auto.
Qed.
Lemma cred_hdelta t (ps : list Addr) l : Forall (fun a => exists p d sh, a = ACred t p d sh /\ p ∈ ps) l ->
  sumz hdelta l = 0 /\ sumz tdelta l = cred_sum l /\ Forall (fun a => a <> AInit) l.
Proof.
  induction 1 as [|a l (p & d & s & -> & _) _ (A & B & C)]; simpl; [done|]. unfold cred_sum in *. simpl. 
  split; [lia|]. split; [lia|]. by constructor.
Qed.
Lemma pool_acts_hdelta a0 l : Forall (fun b => b = ANone \/ exists n, b = ADrw a0 n \/ b = ADon a0 n) l ->
  sumz hdelta l = sumz tdelta l /\ Forall (fun a => a <> AInit) l.
Proof.
  induction 1 as [|a l Hor _ (A & C)]; simpl; [done|].
  destruct Hor as [->|(n & [->| ->])]; simpl; (split; [lia|by constructor]).
Qed.
(** no transaction records more tokens than it brings in *)
Lemma acts_delta o out l : acts_of o out l -> l <> [AInit] -> sumz tdelta l <= sumz hdelta l /\ Forall (fun a => a <> AInit) l.
Proof.
  intros H Hn. 
  assert (l = [ANone] -> sumz tdelta l <= sumz hdelta l /\ Forall (fun a => a <> AInit) l) as H0 by (intros ->; simpl; split; [lia|by repeat constructor]).
  destruct o as [sg o|sg a o|sg ad sa orc ra mp|b|dt ds|orc|n|b t u|b r|]; simpl in H; auto.
  - destruct o; simpl in H; auto.
    + done.
    + destruct H as (_ & _ & m & _ & ->). simpl. split; [lia|]. by repeat constructor.
    + destruct H as (_ & ->). simpl. split; [lia|]. by repeat constructor.
    + destruct H as (_ & ->). simpl. split; [lia|]. by repeat constructor.
    + destruct H as (_ & m & _ & ->). simpl. split; [lia|]. by repeat constructor.
    + destruct H as (_ & ->). simpl. split; [lia|]. by repeat constructor.
    + destruct H as (_ & _ & ->). simpl. split; [lia|]. by repeat constructor.
    + destruct H as (_ & [->|(l' & -> & Hf & Hc)]); auto. apply cred_hdelta in Hf as (A & B & C). simpl. split; [lia|]. by repeat constructor.
  - apply pool_acts_hdelta in H as [A B]. split; [lia|done].
Qed.

Definition backed (w : World) : Prop :=
  allow_ok (w_ext w) /\
  (bs_init (x_bs (w_ext w)) = false -> psum (w_ext w) = 0) /\
  (bs_init (x_bs (w_ext w)) = true -> bs_token (x_bs (w_ext w)) <> bs_blnd (x_bs (w_ext w)) -> psum (w_ext w) <= held (w_ext w)).
Lemma psum_zero x : (forall p, pb_tokens (get_pb x p) = 0) -> psum x = 0.
Proof.
  intros H. unfold psum. apply sumz_zero. intros [p b] Hb. apply elem_of_map_to_list in Hb. simpl. specialize (H p). unfold get_pb in H. by rewrite Hb in H.
Qed.
Lemma reachable_backed w : reachable w -> backed w.
Proof.
  revert w. apply reach_inv'.
  - intros w (now & seq & t & o & lp & -> & _ & _ & [_ Ha] & _). split; [|split].
    + intros tok s v Hv. simpl in Hv. destruct v. apply Ha in Hv as [_ Hv]. unfold bs_addr in Hv. lia.
    + intros _. unfold psum. simpl. by rewrite map_to_list_empty.
    + done.
  - intros w o out w' Hr (Ha & H0 & H1) H. destruct (exec_acts _ _ _ _ H Hr) as (l & Hl & Hacts).
    pose proof (reachable_binv _ (reachable_step _ _ _ _ Hr H)) as Hb'. pose proof (reachable_binv _ Hr) as Hb.
    destruct (decide (l = [AInit])) as [->|Hne].
    { inversion Hl as [|? ? ? y ? Hm Hnil]; subst. inversion Hnil; subst. destruct Hm as [Hbal Hi Hal Hh _]. split; [auto|].
      assert (psum (w_ext w') = 0) as Hz.
      { destruct Hbal as [_ Hp]. unfold psum. rewrite Hp. by apply H0. }
      split; [done|]. intros _ _. rewrite Hz. unfold held. rewrite Hh. by apply reachable_tok_nonneg. }
    apply acts_delta in Hacts as [Hd Hf]; [|done].
    destruct (bmoves_fixed _ _ _ _ Hl Hf) as (I1 & I2 & I3 & I4). split; [auto|]. rewrite I1, I2, I3. split.
    + intros Hi. apply psum_zero. apply Hb'. by rewrite I1.
    + intros Hi Hne'. destruct (bmoves_held _ _ _ _ Hl Hf Ha Hne') as (A & B & _). specialize (H1 Hi Hne'). lia.
Qed.

(** The deposit token is assumed to be a token of its own, not BLND: the backstop
    hands out BLND emissions from the same contract balance. *)
Theorem C37_deposits_backed w :
  reachable w -> bs_init (x_bs (w_ext w)) = true -> bs_token (x_bs (w_ext w)) <> bs_blnd (x_bs (w_ext w)) ->
  recorded_tokens w <= lp_held w.
Proof. intros Hr. apply (reachable_backed w Hr). Qed.
Theorem C37_nothing_recorded_before_init w :
  reachable w -> bs_init (x_bs (w_ext w)) = false -> recorded_tokens w = 0.
Proof. intros Hr. apply (reachable_backed w Hr). Qed.
