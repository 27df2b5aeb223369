(** * Properties of the backstop: emission totals over histories (C44, C45, C47, C48) *)
From Verif Require Import Base Types Token Emitter Factory Backstop PoolReserve PoolUser PoolHealth
  PoolAuction PoolSubmit PoolEmis PoolAdmin World Facts XMove Spec FrameFacts PoolFrame PoolCfg BackMoves BackInv BackEmis
  PropsEmitter PropsAdmin PropsBackstop PropsBackstop3 Scenario.

Notation bstop w := (x_bs (w_ext w)) (only parsing).

(** the value returned by a [gulp_emissions] transaction of the backstop *)
Definition gulped (w : World) (o : Op) (w' : World) : Z :=
  match o with OExt _ BGulp => returned w o | _ => 0 end.
(** BLND the backstop receives in a distribute or swap transaction of the emitter *)
Definition bs_received (w : World) (o : Op) (w' : World) : Z :=
  match o with
  | OExt _ EDistribute | OExt _ ESwap =>
      balance (tokens w') (em_blnd (emitter w)) bs_addr - balance (tokens w) (em_blnd (emitter w)) bs_addr
  | _ => 0
  end.
(** a swap that makes the (already initialized) backstop current again *)
Definition comeback (w : World) (o : Op) : Prop :=
  match o with
  | OExt _ ESwap => bs_init (bstop w) = true /\ em_backstop (emitter w) <> bs_addr /\ em_backstop (emitter (step w o)) = bs_addr
  | _ => False
  end.
Definition never_back (w0 : World) (l : list Op) : Prop :=
  forall l1 o l2, l = l1 ++ o :: l2 -> ~ comeback (run w0 l1) o.

(** ** C48 *)
Definition minv (g m : Z) (w : World) : Prop :=
  (em_init (emitter w) = false -> em_last (emitter w) = ∅) /\
  ((bs_init (bstop w) = false /\ g = 0 /\ 0 <= m) \/
   (bs_init (bstop w) = true /\ em_init (emitter w) = true /\ exists L, em_last (emitter w) !! bs_addr = Some L /\ bs_last (bstop w) <= L /\
      g + 10000000 * (L - bs_last (bstop w)) <= m)).

Lemma minv_same g m w w' :
  em_init (emitter w') = em_init (emitter w) -> em_last (emitter w') = em_last (emitter w) ->
  bs_init (bstop w') = bs_init (bstop w) -> bs_last (bstop w') = bs_last (bstop w) -> minv g m w -> minv g m w'.
Proof. unfold minv. intros -> -> -> ->. done. Qed.

Lemma minv_distribute g m c w x' n w' L0 :
  em_execute_distribute c (w_ext w) (em_backstop (emitter w)) = Ok (n, x') -> c_now c = w_now w -> L0 = w_now w ->
  minv g m w -> em_init (emitter w) = true -> em_init (emitter w') = true -> bs_init (bstop w') = bs_init (bstop w) -> bs_last (bstop w') = bs_last (bstop w) ->
  tokens w' = x_tok x' ->
  (em_last (emitter w') !! bs_addr = <[em_backstop (emitter w) := L0]> (em_last (emitter w)) !! bs_addr \/ bs_init (bstop w) = false) ->
  minv g (m + (balance (tokens w') (em_blnd (emitter w)) bs_addr - balance (tokens w) (em_blnd (emitter w)) bs_addr)) w'.
Proof.
  intros H Hc -> [Hm1 Hm2] Hi Hi' B1 B2 Ht Hl. apply em_execute_distribute_spec in H as (last & Hlast & Hle & -> & _ & _ & Hb).
  unfold tokens in *. rewrite Ht, Hb. fold (emitter w) in *. split; [by rewrite Hi'|].
  set (n := (c_now c - last) * SCALAR_7) in *. assert (0 <= n) by (unfold n; vals; lia).
  destruct Hm2 as [(M1 & M2 & M3)|(M1 & M2 & L & M3 & M4 & M5)].
  - left. rewrite B1. split; [done|]. split; [done|]. destruct (bool_decide _); lia.
  - right. rewrite B1, B2. split; [done|]. split; [done|]. destruct Hl as [Hl|]; [|congruence].
    destruct (decide (em_backstop (emitter w) = bs_addr)) as [E|E].
    + exists (w_now w). rewrite Hl, E, lookup_insert. split; [done|]. rewrite E in Hlast. rewrite M3 in Hlast. injection Hlast as <-.
      rewrite bool_decide_eq_true_2 by done. unfold n. vals. split; lia.
    + exists L. rewrite Hl, lookup_insert_ne by done. rewrite bool_decide_eq_false_2 by (intros [_ ?]; done). split; [done|]. split; [done|lia].
Qed.

Lemma add_reward_fields c x a r x' : b_add_reward c x a r = Ok x' ->
  bs_last (x_bs x') = bs_last (x_bs x) /\ bs_init (x_bs x') = bs_init (x_bs x) /\ bs_pemis (x_bs x') = bs_pemis (x_bs x) /\ x_log x' = x_log x.
Proof. unfold b_add_reward. intros H. mon H. destruct (_ <? max_rz_len _); mon H; done. Qed.

Lemma minv_step g m w o out w' :
  reachable w -> minv g m w -> exec w o = Ok (out, w') -> ~ comeback w o ->
  minv (g + gulped w o w') (m + bs_received w o w') w'.
Proof.
  intros Hr Hm H Hn. pose proof (exec_em _ _ _ _ H) as Hem. pose proof (exec_dmoves _ _ _ _ H) as Hd.
  assert (forall k, k = 0 -> g + k = g) as H0 by (intros; lia).
  destruct o as [sg o|sg a o|sg ad sa orc ra mp|a|dt ds|orc|n|a t u|a r|].
  2-10: simpl; rewrite !Z.add_0_r; apply dmoves_rz in Hd as (_ & D1 & D2); apply (minv_same _ _ w); try done; by rewrite Hem.
  destruct o; simpl gulped; simpl bs_received; rewrite ?Z.add_0_r;
    try (apply dmoves_rz in Hd as (_ & D1 & D2); apply (minv_same _ _ w); try done; by rewrite Hem).
  - (* init *) clear Hd Hem. destruct Hm as [M1 M2]. unfold exec in H. mon H. simpl in E. unfold ret_unit in E. mon E. unfold em_initialize in E0. mon E0.
    split; [done|]. destruct M2 as [?|(Hb & Hi & _)]; [left; done|]. unfold emitter in *. rewrite Hi in *. done.
  - (* distribute *) apply dmoves_rz in Hd as (_ & D1 & D2). unfold exec in H. mon H. simpl in E. unfold ret_z in E. mon E. unfold em_distribute in E0. mon E0.
    eapply (minv_distribute _ _ _ w e z _ (w_now w)); try done; try exact E0.
    + apply em_execute_distribute_spec in E0 as (? & _ & _ & _ & He & _). unfold emitter. simpl. by rewrite He.
    + left. apply em_execute_distribute_spec in E0 as (? & _ & _ & _ & He & _). unfold emitter. simpl. by rewrite He.
  - (* queue *) clear Hem. apply dmoves_rz in Hd as (_ & D1 & D2). unfold exec in H. mon H. simpl in E. unfold ret_unit in E. mon E. unfold em_queue_swap in E0. mon E0.
    by apply (minv_same _ _ w).
  - (* cancel *) clear Hem. apply dmoves_rz in Hd as (_ & D1 & D2). unfold exec in H. mon H. simpl in E. unfold ret_unit in E. mon E. unfold em_cancel_swap in E0. mon E0.
    by apply (minv_same _ _ w).
  - (* swap *) apply dmoves_rz in Hd as (_ & D1 & D2). assert (bs_init (bstop w) = true -> em_backstop (emitter w) <> bs_addr -> em_backstop (emitter w') <> bs_addr) as Hn'.
    { intros A B C. apply Hn. split; [done|]. split; [done|]. unfold step. by rewrite H. }
    clear Hn. unfold exec in H. mon H. simpl in E. unfold ret_unit in E. mon E. unfold em_swap_backstop in E0. mon E0.
    match goal with E : em_execute_distribute _ _ _ = Ok _ |- _ => rename E into Ed end.
    assert (em_init (emitter w) = true \/ bs_init (bstop w) = false) as Hi.
    { destruct Hm as [_ [(? & _)|(_ & ? & _)]]; auto. }
    assert (em_init (emitter w) = true) as Hi'.
    { destruct (em_init (emitter w)) eqn:Ei; [done|]. exfalso. destruct Hm as [Hm _]. apply em_execute_distribute_spec in Ed as (l & Hl & _).
      unfold emitter in *. rewrite (Hm Ei) in Hl. by rewrite lookup_empty in Hl. }
    pose proof (em_execute_distribute_spec _ _ _ _ _ Ed) as (l & _ & _ & _ & He & _).
    eapply (minv_distribute _ _ _ w _ _ _ (w_now w)); try done; try exact Ed.
    + unfold emitter. simpl. by rewrite He.
    + destruct (bs_init (bstop w)) eqn:Eb; [|by right]. left. unfold emitter in *. simpl in *. rewrite He. simpl.
      rewrite lookup_insert_ne; [done|]. intros Hsw. apply Hn'; [done| |done].
      intros Hcur. match goal with E : em_is_larger _ _ _ = true |- _ => unfold em_is_larger in E; rewrite Hcur, Hsw in E end. lia.
  - (* drop *) clear Hem. apply dmoves_rz in Hd as (_ & D1 & D2). unfold exec in H. mon H. simpl in E. unfold ret_unit in E. mon E. unfold em_drop in E0. mon E0. mints_as Hx.
    apply (minv_same _ _ w); try done; unfold emitter; simpl; by rewrite Hx.
  - (* backstop init *) clear Hd. destruct Hm as [M1 M2]. unfold exec in H. mon H. simpl in E. unfold ret_unit in E. mon E. unfold b_initialize in E0. mon E0.
    split; [done|]. destruct M2 as [(M2 & -> & M3)|(Hb & _)]; [|rewrite Hb in *; done]. right. split; [done|].
    unfold em_get_last, unwrap in E. destruct (em_last (x_em (w_ext w)) !! bs_addr) as [L|] eqn:EL; [|done]. apply Ok_inj in E as ->.
    split.
    { unfold PropsEmitter.emitter in *. simpl. destruct (em_init (x_em (w_ext w))) eqn:Ei; [done|]. rewrite (M1 eq_refl) in EL. by rewrite lookup_empty in EL. }
    exists last. unfold PropsEmitter.emitter. simpl. split; [done|]. split; [lia|]. lia.
  - (* backstop drop *) clear Hem. apply dmoves_rz in Hd as (_ & D1 & D2). unfold exec in H. mon H. simpl in E. unfold ret_unit in E. mon E. unfold b_drop, em_drop in E0. mon E0. mints_as Hx.
    apply (minv_same _ _ w); try done; unfold emitter; simpl; by rewrite Hx.
  - (* add reward *) unfold exec in H. mon H. simpl in E. unfold ret_unit in E. mon E. apply add_reward_fields in E0 as (F1 & F2 & _).
    apply (minv_same _ _ w); try done; by rewrite Hem.
  - (* gulp *) unfold returned. rewrite H. unfold exec in H. mon H. simpl in E. unfold ret_z in E. mon E.
    destruct (b_gulp_spec _ _ _ _ _ E0 (reachable_binv _ Hr)) as (el & tot & evs & A1 & A2 & A3 & A4 & _ & _ & _ & _ & _ & _ & _ & A11 & A12 & A13 & _).
    destruct Hm as [M1 M2]. split; [by rewrite Hem|]. right. simpl. rewrite Hem, A12, A13, A11. destruct M2 as [(M2 & _)|(_ & M3 & L & M4 & M5 & M6)]; [congruence|].
    split; [done|]. split; [done|]. exists el. unfold emitter in *. split; [done|]. rewrite M4 in A1. injection A1 as ->. split; lia.
Qed.

Lemma never_back_app w0 l1 l2 : never_back w0 (l1 ++ l2) -> never_back w0 l1.
Proof. intros H k1 o k2 ->. apply (H k1 o (k2 ++ l2)). by rewrite <- app_assoc. Qed.

Lemma minv_run w0 l : initial w0 -> never_back w0 l -> minv (sumh gulped w0 l) (sumh bs_received w0 l) (run w0 l).
Proof.
  intros Hi. induction l as [|o l IH] using rev_ind; intros Hn.
  - destruct Hi as (now & seq & t & or & lp & -> & _). split; [done|left]. done.
  - rewrite !sumh_app, run_snoc. simpl. rewrite !Z.add_0_r. specialize (IH (never_back_app _ _ _ Hn)).
    assert (reachable (run w0 l)) as Hr by (by exists w0, l).
    unfold step at 3. destruct (exec (run w0 l) o) as [[out w']|] eqn:E.
    + assert (step (run w0 l) o = w') as -> by (unfold step; by rewrite E). eapply minv_step; [done|done|exact E|]. by apply (Hn l o []).
    + assert (step (run w0 l) o = run w0 l) as Hs by (unfold step; by rewrite E). rewrite Hs.
      assert (gulped (run w0 l) o (run w0 l) = 0) as -> by (unfold gulped, returned; rewrite E; destruct o as [? []| | | | | | | | |]; done).
      assert (bs_received (run w0 l) o (run w0 l) = 0) as -> by (unfold bs_received; destruct o as [? []| | | | | | | | |]; lia).
      by rewrite !Z.add_0_r.
Qed.

(** C48.  In every history in which the backstop, once replaced at the emitter, does
    not become current again, the amounts returned by [gulp_emissions] (and hence by
    C43 everything it allocates) add up to at most the BLND that distribute and swap
    transactions of the emitter minted to the backstop.  Without the
    restriction the claim is false, see [C48_restriction_needed]. *)
Theorem C48_allocated_at_most_minted w0 l :
  initial w0 -> never_back w0 l -> sumh gulped w0 l <= sumh bs_received w0 l.
Proof. intros Hi Hn. destruct (minv_run w0 l Hi Hn) as [_ [(_ & -> & ?)|(_ & _ & L & _ & ? & ?)]]; lia. Qed.

(** the backstop is replaced by an account holding more LP tokens, and 31 days later
    becomes current again; nothing was minted to it in between, but its next
    [gulp_emissions] allocates the whole time *)
Definition ops_back : list Op :=
  ops_emit ++
  [OExt [carol] (TTransfer LP carol dave 900000000000); OExt [bob] (TTransfer LP bob dave 700000000000);
   OExt [dave] (EQueueSwap dave LP); OTick 2678400 535680; OExt [] ESwap;
   OExt [dave] (TTransfer LP dave carol 1500000000000);
   OExt [] (EQueueSwap bs_addr LP); OTick 2678400 535680; OExt [] ESwap; OExt [] BGulp].
Theorem C48_restriction_needed : exists w0 l, initial w0 /\ all_ok w0 l = true /\ sumh bs_received w0 l < sumh gulped w0 l.
Proof. exists sc0, ops_back. split; [apply sc0_initial|]. split; by vm_compute. Qed.
(** hypotheses are met by a history that does allocate *)
Lemma no_swap_never_back w0 l : forallb (fun o => match o with OExt _ ESwap => false | _ => true end) l = true -> never_back w0 l.
Proof.
  intros H l1 o l2 ->. rewrite forallb_app in H. apply andb_true_iff in H as [_ H]. simpl in H.
  destruct o as [? []| | | | | | | | |]; simpl in *; intros Hc; try done.
Qed.
Example C48_not_vacuous : never_back sc0 ops_emit /\ 0 < sumh gulped sc0 ops_emit.
Proof. split; [by apply no_swap_never_back|by vm_compute]. Qed.

(** ** C47 *)
Lemma handed_app l1 l2 p : handed (l1 ++ l2) p = handed l1 p + handed l2 p. Proof. apply sumz_app. Qed.
Lemma alloc_pool_app l1 l2 p : alloc_pool (l1 ++ l2) p = alloc_pool l1 p + alloc_pool l2 p. Proof. apply sumz_app. Qed.
Lemma silent_hand cl evs p : Forall (silent cl) evs -> handed evs p = 0 /\ alloc_pool evs p = 0.
Proof.
  intros H. unfold handed, alloc_pool. split; apply sumz_zero; intros e He; rewrite Forall_forall in H; specialize (H e He); by destruct e.
Qed.
Definition hinv (x : Ext) : Prop := forall p, handed (x_log x) p + get_pemis x p = alloc_pool (x_log x) p.
Lemma quiet_hinv cl x x' : quiet cl x x' -> hinv x -> hinv x'.
Proof.
  intros (_ & Q1 & _ & _ & evs & Q2 & Q3) H p. rewrite Q2, handed_app, alloc_pool_app. destruct (silent_hand _ evs p Q3) as [-> ->].
  unfold get_pemis. rewrite Q1. apply H.
Qed.
Lemma gulp_pool_spec c x p n x' : b_gulp_pool c x p = Ok (n, x') ->
  c_auth c p = true /\ n = get_pemis x p /\ n <> 0 /\ get_pemis x' p = 0 /\ (forall q, q <> p -> get_pemis x' q = get_pemis x q) /\
  x_log x' = EvHandOver p n :: x_log x /\
  allowance c (x_tok x') (bs_blnd (x_bs x)) bs_addr p = allowance c (x_tok x) (bs_blnd (x_bs x)) bs_addr p + n /\
  (forall k a, balance (x_tok x') k a = balance (x_tok x) k a).
Proof.
  unfold b_gulp_pool. intros H. mon H. apply need_auth_ok in E. unfold approve in *. mon E2. 
  apply i128_ok in E0 as [-> _]. apply u32_ok in E1 as [-> ?].
  split; [done|]. split; [done|]. split; [lia|]. split; [unfold get_pemis; simpl; by rewrite lookup_insert|].
  split; [intros q Hq; unfold get_pemis; simpl; by rewrite lookup_insert_ne|]. split; [done|]. split; [|done].
  unfold allowance at 1. simpl. rewrite lookup_insert. unfold LEDGER_BUMP_USER. destruct (Z.ltb_spec (c_seq c + 2073600) (c_seq c)); [lia|done].
Qed.
Lemma dmove_hinv cl x x' : dmove cl x x' -> hinv x -> hinv x'.
Proof.
  destruct 1 as [x x' H|c x p n x' H|x x' tok to n Hb Hl _].
  - by eapply quiet_hinv.
  - intros Hh q. apply gulp_pool_spec in H as (_ & -> & _ & H1 & H2 & H3 & _). rewrite H3. specialize (Hh q). unfold handed, alloc_pool in *. simpl.
    destruct (Z.eqb_spec p q) as [->|Hne]; [lia|]. rewrite H2 by done. lia.
  - intros Hh q. specialize (Hh q). rewrite Hl. unfold handed, alloc_pool, get_pemis in *. rewrite Hb. simpl. lia.
Qed.
Lemma reachable_hinv w : reachable w -> hinv (w_ext w).
Proof.
  revert w. apply reach_inv'.
  - intros w (now & seq & t & o & lp & -> & _) p. done.
  - intros w o out w' Hr Hh H. pose proof (exec_dmoves _ _ _ _ H) as Hd.
    assert (forall cl, dmoves cl (w_ext w) (w_ext w') -> hinv (w_ext w')) as Hdm.
    { revert Hh. clear. intros Hh cl H. induction H; [done|]. eauto using dmove_hinv. }
    destruct o as [sg o|sg a o|sg ad sa orc ra mp|a|dt ds|orc|n|a t u|a r|]; try (by apply (Hdm _ Hd)).
    destruct o; try (by apply (Hdm _ Hd)); clear Hdm Hd; unfold exec in H; mon H; simpl in E; unfold ret_unit, ret_z in E; mon E.
    + unfold b_initialize in E0. mon E0. done.
    + apply add_reward_fields in E0 as (_ & _ & E1 & E2). intros p. simpl. rewrite E2. unfold get_pemis. rewrite E1. apply Hh.
    + destruct (b_gulp_spec _ _ _ _ _ E0 (reachable_binv _ Hr)) as (el & tot & evs & _ & _ & _ & _ & _ & A6 & A7 & _ & _ & _ & _ & _ & _ & _ & A14).
      intros p. simpl. rewrite A6, A14, handed_app, alloc_pool_app. specialize (Hh p).
      assert (handed (rev evs) p = 0) as ->.
      { apply sumz_zero. intros e' He. apply elem_of_list_In, in_rev, elem_of_list_In in He. clear -A7 He.
        induction A7 as [|q ev l evs Hev _ IH]; [set_solver|]. apply elem_of_cons in He as [->|He]; [|by apply IH]. by destruct Hev as (? & ? & _ & _ & ->). }
      assert (alloc_pool (rev evs) p = alloc_pool evs p) as -> by (apply sumz_perm; symmetry; apply Permutation_rev). lia.
Qed.

(** C47.  For every pool and every history: what was handed over to the pool plus
    what is still recorded for it equals what [gulp_emissions] allocated to it. *)
Theorem C47_handover_conserved w p : reachable w ->
  handed (x_log (w_ext w)) p + get_pemis (w_ext w) p = alloc_pool (x_log (w_ext w)) p.
Proof. intros H. by apply reachable_hinv. Qed.
(** The hand-over happens in the pool's [gulp_emissions] call (the backstop demands the
    pool's authorization): it returns exactly the recorded amount, raises the pool's
    BLND allowance from the backstop by exactly that amount, moves no tokens, clears
    the record of this pool and leaves the records of the other pools; an immediate
    second call fails. *)
Theorem C47_handover_exact w sg p n w' :
  exec w (OPool sg p PGulp) = Ok (OutZ n, w') ->
  n = get_pemis (w_ext w) p /\ n <> 0 /\
  get_pemis (w_ext w') p = 0 /\ (forall q, q <> p -> get_pemis (w_ext w') q = get_pemis (w_ext w) q) /\
  handed (x_log (w_ext w')) p = handed (x_log (w_ext w)) p + n /\
  allowance (ctx w sg) (tokens w') (bs_blnd (bstop w)) bs_addr p = allowance (ctx w sg) (tokens w) (bs_blnd (bstop w)) bs_addr p + n /\
  (forall k a, balance (tokens w') k a = balance (tokens w) k a) /\
  forall sg', ~ succeeds w' (OPool sg' p PGulp).
Proof.
  intros H. unfold exec in H. mon H. simpl in E0. mon1 E0. unfold ret_z in E0. mon E0. unfold p_gulp, to_backstop in E1. mon E1. mon1 E0.
  match goal with E : b_gulp_pool _ _ _ = Ok _ |- _ => apply gulp_pool_spec in E as (A1 & A2 & A3 & A4 & A5 & A6 & A7 & A8) end. simpl in *.
  split; [done|]. split; [done|]. split; [done|]. split; [done|].
  split; [rewrite A6; unfold handed; simpl; rewrite Z.eqb_refl; lia|]. split; [done|]. split; [done|].
  intros sg' (out & w2 & H2). unfold exec in H2. mon H2.
  match goal with E : p_exec _ _ _ PGulp = Ok _ |- _ => simpl in E; mon1 E; unfold ret_z in E; mon E end.
  match goal with E : p_gulp _ _ _ = Ok _ |- _ => unfold p_gulp, to_backstop in E; mon E end.
  match goal with E : (if _ then b_gulp_pool _ _ _ else _) = Ok _ |- _ => mon1 E end.
  match goal with E : b_gulp_pool _ _ _ = Ok _ |- _ => apply gulp_pool_spec in E as (_ & -> & B & _) end. simpl in *. congruence.
Qed.
Example C47_not_vacuous : reachable sc_emit /\ exists n w', exec sc_emit (OPool [] P1 PGulp) = Ok (OutZ n, w') /\ 0 < n /\ n = get_pemis (w_ext sc_emit) P1.
Proof.
  split; [apply sc_reachable|]. destruct (exec sc_emit (OPool [] P1 PGulp)) as [[out w']|] eqn:E; [|by vm_compute in E].
  assert (out = OutZ 172799982720) as ->. { vm_compute in E. by injection E as <- _. }
  exists 172799982720, w'. split; [done|]. split; [lia|]. by vm_compute.
Qed.

(** ** C44 *)
(** what a claim transaction of the backstop returns (BLND), over all its pools *)
Definition bclaimed (w : World) (o : Op) (w' : World) : Z :=
  match o with OExt _ (BClaim _ _ _ _) => returned w o | _ => 0 end.
Definition claimed_ev (e : Ev) : Z := match e with EvBClaim _ _ n => n | _ => 0 end.

(** the log records exactly what a claim pays, per pool *)
Lemma claim_logged c x f ps t lp n x' : b_claim c x f ps t lp = Ok (n, x') ->
  exists evs, x_log x' = rev evs ++ x_log x /\ Forall2 (fun (p : Addr) e => exists a, e = EvBClaim p f a) ps evs /\ sumz claimed_ev evs = n.
Proof.
  unfold b_claim. intros H. mon1 H. mon1 H. apply bind_ok in H as ([[n1 m1] x1] & H1 & H2).
  assert (exists evs, x_log x1 = rev evs ++ x_log x /\ Forall2 (fun (p : Addr) e => exists a, e = EvBClaim p f a) ps evs /\ sumz claimed_ev evs = n1 - 0) as Hx.
  { clear H2 G E. revert H1. generalize (∅ : gmap Addr Z) as m0. generalize 0 as n0. revert x. induction ps as [|p ps IH]; intros x n0 m0 H1; simpl in H1.
    - injection H1 as -> -> ->. exists []. split; [done|]. split; [constructor|]. simpl. lia.
    - apply bind_ok in H1 as ([[n2 m2] x2] & H1 & H2). apply IH in H2 as (evs & I1 & I2 & I3).
      apply bind_ok in H1 as ([a x3] & Eb & Hs). mon1 Hs. apply i128_ok in E as [-> _]. injection Hs as <- <- <-.
      apply emis_frame_b in Eb as (? & ? & ->). simpl in I1.
      exists (EvBClaim p f a :: evs). simpl. split; [by rewrite I1, <- app_assoc|]. split; [constructor; [by eexists|done]|]. lia. }
  destruct Hx as (evs & I1 & I2 & I3). exists evs.
  destruct (0 <? n1); mon H2; [|split; [done|]; split; [done|lia]].
  match goal with E : foldM (claim_dep _ _ _ _) _ _ = Ok _ |- _ => rename E into Ef end.
  assert (x_log x' = x_log x1) as Hl; [|split; [congruence|]; split; [done|lia]].
  change (x_log x1) with (x_log (x1 <| x_tok := t1 |> <| x_lp_supply := x_lp_supply x1 + lp |>)). revert Ef.
  apply (foldM_rel (fun y z => x_log z = x_log y)); [done|congruence|].
  intros s a s' _ E'. unfold claim_dep in E'. mon E'. done.
Qed.

Lemma sum_by_pool (pl : Ev -> Addr) (f : Ev -> Z) l K :
  NoDup K -> (forall e, e ∈ l -> pl e ∈ K) -> sumz (fun p => sumz (fun e => if pl e =? p then f e else 0) l) K = sumz f l.
Proof.
  intros HK. induction l as [|e l IH]; simpl; intros H; [by apply sumz_zero|].
  rewrite sumz_add, IH by set_solver. f_equal. rewrite (sumz_split _ K (pl e)) by (try done; set_solver).
  rewrite Z.eqb_refl. rewrite sumz_zero; [lia|]. intros p Hp. apply elem_of_list_filter in Hp as [Hp _]. by rewrite (proj2 (Z.eqb_neq _ _) (not_eq_sym Hp)).
Qed.
Definition ev_pool (e : Ev) : Addr := match e with EvAlloc p _ _ | EvBClaim p _ _ => p | _ => 0 end.
Lemma total_claims l : (forall p, claimed_by l p <= alloc_dep l p) -> sumz claimed_ev l <= sumz to_dep l.
Proof.
  intros H. set (K := remove_dups (map ev_pool l)).
  assert (NoDup K) by apply NoDup_remove_dups. assert (forall e, e ∈ l -> ev_pool e ∈ K) as Hin.
  { intros e He. unfold K. rewrite elem_of_remove_dups. by apply elem_of_list_fmap_1. }
  rewrite <- (sum_by_pool ev_pool claimed_ev l K), <- (sum_by_pool ev_pool to_dep l K) by done.
  apply sumz_le. intros p _. specialize (H p). unfold claimed_by, alloc_dep in H.
  etrans; [|etrans; [exact H|]]; apply Z.eq_le_incl, sumz_ext; intros e _; destruct e; cbn [ev_pool claimed_ev to_dep]; try done; by destruct (Z.eqb _ _).
Qed.

(** the log against the values the calls return *)
Lemma silent_sum evs : Forall (silent false) evs -> sumz claimed_ev evs = 0 /\ sumz to_dep evs = 0.
Proof. intros H. rewrite Forall_forall in H. split; apply sumz_zero; intros e He; specialize (H e He); by destruct e. Qed.
Lemma dmove_log x x' : dmove false x x' -> sumz claimed_ev (x_log x') = sumz claimed_ev (x_log x) /\ sumz to_dep (x_log x') = sumz to_dep (x_log x).
Proof.
  destruct 1 as [x x' (_ & _ & _ & _ & evs & -> & Hq)|c x p n x' H|x x' tok to n Hb Hl _].
  - rewrite !sumz_app. destruct (silent_sum evs Hq) as [-> ->]. lia.
  - apply gulp_pool_spec in H as (_ & _ & _ & _ & _ & -> & _). simpl. lia.
  - rewrite Hl. simpl. lia.
Qed.
Lemma dmoves_log x x' : dmoves false x x' -> sumz claimed_ev (x_log x') = sumz claimed_ev (x_log x) /\ sumz to_dep (x_log x') = sumz to_dep (x_log x).
Proof. induction 1 as [|x y z H _ IH]; [done|]. apply dmove_log in H. lia. Qed.
Lemma log_step w o out w' : reachable w -> exec w o = Ok (out, w') ->
  sumz claimed_ev (x_log (w_ext w')) = sumz claimed_ev (x_log (w_ext w)) + bclaimed w o w' /\
  10 * sumz to_dep (x_log (w_ext w')) <= 10 * sumz to_dep (x_log (w_ext w)) + 7 * gulped w o w'.
Proof.
  intros Hr H. pose proof (exec_dmoves _ _ _ _ H) as Hd.
  destruct o as [sg o|sg a o|sg ad sa orc ra mp|a|dt ds|orc|n|a t u|a r|];
    try (simpl in Hd; apply dmoves_log in Hd; simpl; lia).
  destruct o; try (simpl in Hd; apply dmoves_log in Hd; simpl; lia); clear Hd; simpl bclaimed; simpl gulped; unfold returned; rewrite ?H;
    unfold exec in H; mon H; simpl in E; unfold ret_unit, ret_z in E; mon E; simpl.
  - unfold b_initialize in E0. mon E0. simpl. lia.
  - apply add_reward_fields in E0 as (_ & _ & _ & ->). lia.
  - destruct (b_gulp_spec _ _ _ _ _ E0 (reachable_binv _ Hr)) as (el & tot & evs & _ & _ & _ & _ & _ & A6 & A7 & A8 & _).
    rewrite A6, !sumz_app, !(sumz_perm _ (rev evs) evs) by (symmetry; apply Permutation_rev).
    assert (sumz claimed_ev evs = 0); [|lia]. apply sumz_zero. intros ev He. clear -A7 He.
    induction A7 as [|q ev' l evs Hev _ IH]; [set_solver|]. apply elem_of_cons in He as [->|He]; [|by apply IH]. by destruct Hev as (? & ? & _ & _ & ->).
  - apply claim_logged in E0 as (evs & -> & A1 & <-). rewrite !sumz_app, !(sumz_perm _ (rev evs) evs) by (symmetry; apply Permutation_rev).
    assert (sumz to_dep evs = 0); [|lia]. apply sumz_zero. intros ev He. clear -A1 He.
    induction A1 as [|q ev' l evs Hev _ IH]; [set_solver|]. apply elem_of_cons in He as [->|He]; [|by apply IH]. by destruct Hev as (? & ->).
Qed.
Lemma log_run w0 l : initial w0 ->
  sumz claimed_ev (x_log (w_ext (run w0 l))) = sumh bclaimed w0 l /\ 10 * sumz to_dep (x_log (w_ext (run w0 l))) <= 7 * sumh gulped w0 l.
Proof.
  intros Hi. induction l as [|o l IH] using rev_ind.
  - destruct Hi as (now & seq & t & or & lp & -> & _). done.
  - rewrite !sumh_app, run_snoc. simpl. rewrite !Z.add_0_r.
    assert (reachable (run w0 l)) as Hr by (by exists w0, l).
    destruct (exec (run w0 l) o) as [[out w']|] eqn:E.
    + assert (step (run w0 l) o = w') as -> by (unfold step; by rewrite E). pose proof (log_step _ _ _ _ Hr E). lia.
    + assert (step (run w0 l) o = run w0 l) as -> by (unfold step; by rewrite E).
      assert (gulped (run w0 l) o (run w0 l) = 0) as -> by (unfold gulped, returned; rewrite E; destruct o as [? []| | | | | | | | |]; done).
      assert (bclaimed (run w0 l) o (run w0 l) = 0) as -> by (unfold bclaimed, returned; rewrite E; destruct o as [? []| | | | | | | | |]; done).
      lia.
Qed.

Lemma emoves_covered c ok em cl x x' : emoves c ok em cl x x' -> (forall u, ok u) -> einv (c_now c) x -> covered x -> covered x'.
Proof. induction 1 as [|x y z H _ IH]; [done|]. intros Ho He Hc. apply IH; [done|by eapply emove_einv|by eapply emove_covered]. Qed.
Lemma covered_run w0 l : initial w0 -> Forall (fun o => own_claim o = true) l -> covered (w_ext (run w0 l)).
Proof.
  intros Hi. induction l as [|o l IH] using rev_ind; intros Hf.
  - destruct Hi as (now & seq & t & or & lp & -> & _). intros p ul Hn. unfold owed, remain, claimed_by, alloc_dep. simpl. rewrite lookup_empty. rewrite sumz_zero; [lia|].
    intros u _. unfold buacc, get_ub, bidx, buidx. simpl. rewrite !lookup_empty. simpl. lia.
  - apply Forall_app in Hf as [Hf Ho]. rewrite run_snoc. specialize (IH Hf).
    assert (reachable (run w0 l)) as Hr by (by exists w0, l). unfold step. destruct (exec (run w0 l) o) as [[out w']|] eqn:E; [|done].
    destruct (reachable_ginv _ Hr) as [Hb He].
    pose proof (exec_emoves _ _ _ _ E (binv_free _ _ Hb) He (fun p => binv_pool _ _ p Hb)) as Hm.
    assert (own_claim o = true) as Ho' by (by inversion Ho). eapply (emoves_covered _ _ _ _ _ _ Hm); [|done|done].
    intros u. destruct o as [? o| | | | | | | | |]; try done. destruct o; try done. simpl in *. destruct (decide (from = u)); [by left|right; lia].
Qed.

(** C44.  In every history whose backstop claims all deposit for the claimer itself
    ([to] = [from]): for every pool, the BLND claimed by its depositors is at most what
    [gulp_emissions] allocated to them; and in total, the BLND returned by claims is at
    most 70% of the BLND returned by [gulp_emissions].  Without the
    restriction on [to] the claim is false, see [C44_restriction_needed]. *)
Theorem C44_claimed_at_most_allocated w0 l :
  initial w0 -> Forall (fun o => own_claim o = true) l ->
  (forall p, claimed_by (x_log (w_ext (run w0 l))) p <= alloc_dep (x_log (w_ext (run w0 l))) p) /\
  10 * sumh bclaimed w0 l <= 7 * sumh gulped w0 l.
Proof.
  intros Hi Hf. pose proof (covered_run w0 l Hi Hf) as Hc. destruct (log_run w0 l Hi) as [L1 L2].
  assert (forall p, claimed_by (x_log (w_ext (run w0 l))) p <= alloc_dep (x_log (w_ext (run w0 l))) p) as Hp.
  { intros p. specialize (Hc p [] ltac:(constructor)). unfold owed in Hc. simpl in Hc.
    assert (0 <= remain (w_ext (run w0 l)) p); [|lia]. assert (reachable (run w0 l)) as Hr by (by exists w0, l).
    destruct (reachable_ginv _ Hr) as [_ ((_ & _ & He) & _)]. unfold remain.
    destruct (bs_ecfg (bstop (run w0 l)) !! p) as [cfg|] eqn:Ec; [|done]. destruct (bs_edata (bstop (run w0 l)) !! p); [|done]. apply He in Ec. nia. }
  split; [done|]. apply total_claims in Hp. lia.
Qed.
Example C44_not_vacuous : Forall (fun o => own_claim o = true) (ops_emit ++ [OTick 604800 120960; OExt [alice] (BClaim alice [P1] alice 2000000000)]) /\
  0 < sumh bclaimed sc0 (ops_emit ++ [OTick 604800 120960; OExt [alice] (BClaim alice [P1] alice 2000000000)]).
Proof. split; [by repeat constructor|by vm_compute]. Qed.

(** alice, the only depositor, claims all her emissions to dave, who has never held
    shares of this pool: dave's fresh shares count from the start of the emissions, and
    his own claim takes the total over what was allocated *)
Definition ops_over : list Op :=
  ops_emit ++ [OTick 604800 120960; OExt [alice] (BClaim alice [P1] dave 2000000000); OExt [dave] (BClaim dave [P1] dave 8000000)].
Theorem C44_restriction_needed : exists w0 l p, initial w0 /\ all_ok w0 l = true /\
  alloc_dep (x_log (w_ext (run w0 l))) p < claimed_by (x_log (w_ext (run w0 l))) p.
Proof. exists sc0, ops_over, P1. split; [apply sc0_initial|]. split; by vm_compute. Qed.

(** ** C45 *)
(** alice queues all shares of her pool for withdrawal; an hour later she can no longer
    take any of them out of the queue, nobody can deposit into the pool, and
    [gulp_emissions] fails although the emitter has distributed for long enough, also
    for the other pool of the reward zone *)
Definition ops_stuck : list Op :=
  ops_emit ++ [OExt [alice] (BQueue alice P1 500000000000); OTick 7200 1440; OExt [] EDistribute].
Theorem C45_restriction_needed : exists w0 l, let w := run w0 l in
  initial w0 /\ all_ok w0 l = true /\ queued_of w P1 alice = 500000000000 /\ length (bs_rz (bstop w)) = 2%nat /\
  em_last (emitter w) !! bs_addr = Some (w_now w) /\ bs_last (bstop w) + 3600 < w_now w /\
  exec w (OExt [alice] (BDequeue alice P1 500000000000)) = Err Trap /\
  exec w (OExt [alice] (BDequeue alice P1 1)) = Err Trap /\
  exec w (OExt [bob] (BDeposit bob P1 1000000000)) = Err Trap /\
  exec w (OExt [] BGulp) = Err Trap.
Proof.
  exists sc0, ops_stuck. cbv zeta. split; [apply sc0_initial|]. split; [by vm_compute|]. split; [by vm_compute|]. split; [by vm_compute|].
  split; [by vm_compute|]. split; [by vm_compute|]. split; [by vm_compute|]. split; [by vm_compute|]. split; by vm_compute.
Qed.
