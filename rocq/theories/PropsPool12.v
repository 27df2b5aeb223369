(** * The pool status and requests that only reduce risk (C09, second half)

    Withdrawals, repayments and auction fills never look at the pool status: whatever
    status is written into the pool's configuration, a submit made only of such
    requests has exactly the same outcome. *)
From Verif Require Import Base Types Token Emitter Factory Backstop PoolReserve PoolUser PoolHealth
  PoolAuction PoolSubmit PoolEmis PoolAdmin World Facts XMove Spec PoolCfg Scenario ScenarioPool.

(** two computations agree up to [R] *)
Definition rel {A B} (R : A -> B -> Prop) (m1 : res A) (m2 : res B) : Prop :=
  match m1, m2 with Ok a, Ok b => R a b | Err e, Err e' => e = e' | _, _ => False end.
Lemma rel_eq {A} (m : res A) : rel eq m m.
Proof. by destruct m. Qed.
Lemma rel_bind {A B C D} (R : A -> B -> Prop) (S : C -> D -> Prop) m1 m2 k1 k2 :
  rel R m1 m2 -> (forall a b, R a b -> rel S (k1 a) (k2 b)) -> rel S (bind m1 k1) (bind m2 k2).
Proof. destruct m1, m2; simpl; intros H Hk; try done. by apply Hk. Qed.
Lemma rel_foldM {A B E} (R : A -> B -> Prop) (f : A -> E -> res A) (g : B -> E -> res B) l :
  (forall a b e, R a b -> rel R (f a e) (g b e)) -> forall a b, R a b -> rel R (foldM f a l) (foldM g b l).
Proof. intros H. induction l as [|e l IH]; simpl; intros a b Hab; [done|]. eapply rel_bind; [by apply H|]. exact IH. Qed.
Lemma rel_foldM' {A B E} (R : A -> B -> Prop) (f : A -> E -> res A) (g : B -> E -> res B) l a b :
  R a b -> (forall a b e, e ∈ l -> R a b -> rel R (f a e) (g b e)) -> rel R (foldM f a l) (foldM g b l).
Proof.
  intros Hab H. revert a b Hab. induction l as [|e l IH]; simpl; intros a b Hab; [done|]. eapply rel_bind; [apply H; [by left|done]|].
  intros a1 b1 H1. apply IH; [|done]. intros a2 b2 e2 He. apply H. by right.
Qed.

Section status.
Context (st : Z).
(** the pool, and a cached copy of its configuration, with the status replaced *)
Definition St (p : PoolSt) : PoolSt := p <| ps_config := ps_config p <| pc_status := st |> |>.
Definition Ch (ch : Cache) : Cache := ch <| ch_cfg := ch_cfg ch <| pc_status := st |> |>.

Ltac same := eapply rel_bind; [apply rel_eq|intros ? ? <-].
Notation via f := (fun a b => b = f a).

Lemma St_emis now p id su sc u bal cl :
  rel (fun a b => b = (fst a, St (snd a))) (p_emissions now p id su sc u bal cl) (p_emissions now (St p) id su sc u bal cl).
Proof.
  unfold p_emissions. simpl. destruct (ps_ecfg p !! id) as [cfg|]; [|done].
  eapply (rel_bind (fun a b => b = (fst a, St (snd a)))).
  - unfold update_edata. simpl. same. destruct (_ || _); [done|]. same. same. same. same. done.
  - intros [d p1] ? ->. simpl. unfold update_user_emis, set_user_emis. simpl.
    destruct (ps_uemis p1 !! (u, id)) as [ud|].
    + destruct (_ || _); [|done]. destruct (bal =? 0); [by destruct cl|]. same. same. same. same. by destruct cl.
    + destruct (bal =? 0); [by destruct cl|]. same. by destruct cl.
Qed.
Lemma St_d_emis now p u r bal : rel (via St) (upd_d_emis now p u r bal) (upd_d_emis now (St p) u r bal).
Proof. unfold upd_d_emis. eapply rel_bind; [apply St_emis|]. intros [n p1] ? ->. done. Qed.
Lemma St_b_emis now p u r bal : rel (via St) (upd_b_emis now p u r bal) (upd_b_emis now (St p) u r bal).
Proof. unfold upd_b_emis. eapply rel_bind; [apply St_emis|]. intros [n p1] ? ->. done. Qed.

Definition St3 (s : PoolSt * Positions * Reserve) : PoolSt * Positions * Reserve := (St s.1.1, s.1.2, s.2).
Definition pos_fn := Z -> PoolSt -> Addr -> Positions -> Reserve -> Z -> res (PoolSt * Positions * Reserve).
Definition blind (f : pos_fn) : Prop := forall now p u pos r n, rel (via St3) (f now p u pos r n) (f now (St p) u pos r n).
Ltac pf := intros now p u pos r n;
  match goal with |- rel _ (?f _ _ _ _ _ _) _ => unfold f end; destruct (negb _); [|done]; try same;
  (eapply rel_bind; [first [apply St_d_emis | apply St_b_emis]|intros p1 ? ->]); repeat same; done.
Lemma blind_al : blind add_liabilities. Proof. pf. Qed.
Lemma blind_rl : blind remove_liabilities. Proof. pf. Qed.
Lemma blind_ac : blind add_collateral. Proof. pf. Qed.
Lemma blind_rc : blind remove_collateral. Proof. pf. Qed.
Lemma blind_rs : blind remove_supply. Proof. pf. Qed.

Lemma St_load now p ch a b : rel (fun x y => y = (fst x, Ch (snd x))) (load_reserve now p ch a b) (load_reserve now (St p) (Ch ch) a b).
Proof.
  unfold load_reserve. simpl.
  destruct (b && _); simpl; (destruct (ch_res ch !! a); [done|]); (eapply (rel_bind eq); [|intros r ? <-; done]); unfold load_res; simpl; apply rel_eq.
Qed.
Lemma St_price now x ch a : rel (fun x y => y = (fst x, Ch (snd x))) (load_price now x ch a) (load_price now x (Ch ch) a).
Proof. unfold load_price. simpl. destruct (ch_price ch !! a); [done|]. same. same. by destruct (negb _). Qed.
Lemma St_dec x ch : rel (fun x y => y = (fst x, Ch (snd x))) (load_dec x ch) (load_dec x (Ch ch)).
Proof. unfold load_dec. simpl. destruct (ch_dec ch); [done|]. by same. Qed.

Definition Fl' (s : Fl) : Fl := (St s.1.1, Ch s.1.2, s.2).
Lemma St_pos_step f now u s e : blind f -> rel (via Fl') (pos_step f now u s e) (pos_step f now u (Fl' s) e).
Proof.
  intros Hf. destruct s as [[p ch] pos]. unfold pos_step. simpl. eapply rel_bind; [apply St_load|]. intros [r ch1] ? ->. simpl.
  eapply rel_bind; [apply Hf|]. intros [[p1 pos1] r1] ? ->. done.
Qed.
Lemma St_rm now u s c l : rel (via Fl') (rm_positions now u s c l) (rm_positions now u (Fl' s) c l).
Proof.
  unfold rm_positions. eapply (rel_bind (via Fl')).
  - apply (rel_foldM (via Fl')); [|done]. intros a b e ->. by apply St_pos_step, blind_rc.
  - intros a b ->. apply (rel_foldM (via Fl')); [|done]. intros a1 b1 e ->. by apply St_pos_step, blind_rl.
Qed.
Lemma St_add now u s c l : rel (via Fl') (add_positions now u s c l) (add_positions now u (Fl' s) c l).
Proof.
  unfold add_positions. eapply (rel_bind (via Fl')).
  - apply (rel_foldM (via Fl')); [|done]. intros a b e ->. by apply St_pos_step, blind_ac.
  - intros a b ->. apply (rel_foldM (via Fl')); [|done]. intros a1 b1 e ->. by apply St_pos_step, blind_al.
Qed.

Lemma St_fill c self p x ch t user filler fpos pct :
  rel (fun a b => b = (Fl' (fst a), snd a)) (fill c self p x ch t user filler fpos pct) (fill c self (St p) x (Ch ch) t user filler fpos pct).
Proof.
  unfold fill. destruct (negb (user =? filler)); [|done]. simpl. same. same. destruct a0 as [tf rem].
  eapply (rel_bind (fun a b => b = (Fl' (fst a), snd a))).
  2:{ intros [[[p1 ch1] fp] x1] ? ->. simpl. by destruct rem. }
  destruct (t =? 0); [|destruct (t =? 1); [|destruct (t =? 2); [|done]]].
  - eapply (rel_bind (via Fl')); [|intros ? ? ->; done]. unfold fill_user_liq.
    eapply rel_bind; [apply (St_rm _ _ (p, ch, get_pos p user))|]. intros [[p1 ch1] up] ? ->. simpl.
    eapply rel_bind; [apply (St_add _ _ (p1, ch1, fpos))|]. intros [[p2 ch2] fp] ? ->. done.
  - unfold fill_bad_debt. simpl. destruct (negb _); [|done].
    eapply rel_bind; [apply (St_rm _ _ (p, ch, get_pos p (ps_backstop p)))|]. intros [[p1 ch1] bp] ? ->. simpl.
    eapply rel_bind; [apply (St_add _ _ (p1, ch1, fpos))|]. intros [[p2 ch2] fp] ? ->. simpl.
    unfold call_backstop_token, call_pool_data, to_backstop. simpl. same. same. same. destruct (bool_decide _); [done|]. same.
    destruct (_ <? 3); [|done]. same.
    eapply rel_bind; [apply (St_rm _ _ (p2, ch2, bp))|]. intros [[p3 ch3] bp3] ? ->. done.
  - eapply (rel_bind (fun a b => b = (Ch (fst a), snd a))).
    2:{ intros [ch1 x1] ? ->. done. }
    unfold fill_interest, call_backstop_token, to_backstop. simpl. destruct (negb _); [|done]. same. same. same.
    apply rel_foldM; [|done]. intros [ch1 x1] ? e ->. unfold interest_fill_one. simpl.
    eapply rel_bind; [apply St_load|]. intros [r ch2] ? ->. simpl. same. same. done.
Qed.

Definition Lo (s : Loop) : Loop := s <| lo_p := St (lo_p s) |> <| lo_ch := Ch (lo_ch s) |>.
(** the requests that only reduce risk, or fill auctions *)
Definition blind_type (t : Z) : bool := (t =? 1) || (t =? 3) || (t =? 5) || (t =? 6) || (t =? 7) || (t =? 8).

Lemma St_request c self from s q : blind_type (rq_type q) = true -> rel (via Lo) (do_request c self from s q) (do_request c self from (Lo s) q).
Proof.
  intros Hq. unfold do_request. same.
  assert (require_action (lo_ch s) (rq_type q) = Ok tt /\ require_action (lo_ch (Lo s)) (rq_type q) = Ok tt) as [-> ->].
  { unfold blind_type in Hq. unfold require_action.
    assert ((rq_type q =? 4) = false /\ (rq_type q =? 9) = false /\ (rq_type q =? 2) = false /\ (rq_type q =? 0) = false) as (-> & -> & -> & ->) by lia.
    cbn [orb]. by rewrite !andb_false_r. }
  cbn [bind].
  assert (forall t chk, rel (via Lo) (do_fill c self from t chk s q) (do_fill c self from t chk (Lo s) q)) as Hfill.
  { intros t chk. unfold do_fill. simpl. eapply rel_bind; [apply St_fill|]. intros [[[p ch] pos] x] ? ->. done. }
  unfold blind_type in Hq.
  assert (rq_type q = 1 \/ rq_type q = 3 \/ rq_type q = 5 \/ rq_type q = 6 \/ rq_type q = 7 \/ rq_type q = 8) as Ht by lia.
  destruct Ht as [->|[->|[->|[->|[->| ->]]]]]; try apply Hfill.
  - unfold do_withdraw. simpl. eapply rel_bind; [apply St_load|]. intros [r ch] ? ->. simpl. same. same. destruct a1 as [tb out].
    eapply rel_bind; [apply blind_rs|]. intros [[p pos] r1] ? ->. simpl. same. done.
  - unfold do_withdraw_coll. simpl. eapply rel_bind; [apply St_load|]. intros [r ch] ? ->. simpl. same. same. destruct a1 as [tb out].
    eapply rel_bind; [apply blind_rc|]. intros [[p pos] r1] ? ->. simpl. same. done.
  - unfold do_repay. simpl. eapply rel_bind; [apply St_load|]. intros [r ch] ? ->. simpl. same. same. destruct (_ <? _).
    + same. same. same. eapply rel_bind; [apply blind_rl|]. intros [[p pos] r1] ? ->. simpl. same. done.
    + eapply rel_bind; [apply blind_rl|]. intros [[p pos] r1] ? ->. done.
Qed.

Lemma St_store p ch : rel (via St) (store_cached p ch) (store_cached (St p) (Ch ch)).
Proof. unfold store_cached. simpl. apply rel_foldM; [|done]. intros a b e ->. same. done. Qed.

Lemma St_health c p x ch pos : rel (fun a b => b = (fst a, Ch (snd a))) (position_data c p x ch pos) (position_data c (St p) x (Ch ch) pos).
Proof.
  unfold position_data. eapply rel_bind; [apply St_dec|]. intros [dec ch1] ? ->. simpl. same.
  eapply (rel_bind (fun a b => b = (fst a, Ch (snd a)))).
  - apply rel_foldM; [|done]. intros [[[[cb cr] lb] lr] ch2] ? ia ->. unfold health_one. cbn [fst snd]. destruct (_ && _); [done|].
    eapply rel_bind; [apply St_load|]. intros [r ch3] ? ->. cbn [fst snd]. eapply rel_bind; [apply St_price|]. intros [pr ch4] ? ->. cbn [fst snd].
    same. destruct a0 as [cb1 cr1]. same. destruct a0 as [lb1 lr1]. done.
  - intros [[[[cb cr] lb] lr] ch2] ? ->. done.
Qed.

Lemma St_submit c self p x from spender to qs : forallb (fun q => blind_type (rq_type q)) qs = true ->
  rel (fun a b => b = (fst a, mkPX (St (px_p (snd a))) (px_x (snd a))))
    (p_submit c self (mkPX p x) from spender to qs) (p_submit c self (mkPX (St p) x) from spender to qs).
Proof.
  intros Hq. unfold p_submit. same. same. destruct (negb _); [|done]. cbn [px_p px_x].
  eapply (rel_bind (via Lo)).
  { unfold build_actions. eapply (rel_bind (via Lo)).
    - apply rel_foldM'; [done|]. intros a1 b1 q Hin ->. apply St_request. rewrite forallb_forall in Hq. apply Hq. by apply elem_of_list_In.
    - intros s ? ->. cbn [lo_ch lo_pos Lo set]. unfold require_under_max. simpl. destruct (_ && _); done. }
  intros s ? ->. eapply (rel_bind (via Ch)).
  { unfold check_hf. simpl. destruct (_ && _); [|done]. eapply rel_bind; [apply St_health|]. intros [d ch] ? ->. cbn [fst snd]. same. by destruct (negb _). }
  intros ch ? ->. simpl. same. eapply rel_bind; [apply St_store|]. intros p1 ? ->. simpl. same. done.
Qed.
End status.

(** ** The theorem *)
(** the world in which pool [a] has status [st] and everything else is the same *)
Definition with_status (st : Z) (a : Addr) (w : World) : World :=
  w <| w_pools := alter (fun p => p <| ps_config := ps_config p <| pc_status := st |> |>) a (w_pools w) |>.

Theorem C09_exits_ignore_status w sg a from spender to qs st :
  Forall (fun q => rq_type q = 1 \/ rq_type q = 3 \/ rq_type q = 5 \/ rq_type q = 6 \/ rq_type q = 7 \/ rq_type q = 8) qs ->
  match exec w (OPool sg a (PSubmit from spender to qs)) with
  | Ok (out, w') => exec (with_status st a w) (OPool sg a (PSubmit from spender to qs)) = Ok (out, with_status st a w')
  | Err e => exec (with_status st a w) (OPool sg a (PSubmit from spender to qs)) = Err e
  end.
Proof.
  intros Hq.
  assert (forallb (fun q => blind_type (rq_type q)) qs = true) as Hb.
  { apply forallb_forall. intros q Hin. rewrite Forall_forall in Hq. apply elem_of_list_In, Hq in Hin. unfold blind_type. lia. }
  unfold exec. cbn [ty_pop]. destruct (forallb ok_signer sg && _); [|done].
  assert (w_pools (with_status st a w) !! a = St st <$> (w_pools w !! a)) as El by (unfold with_status; cbn [w_pools set]; apply lookup_alter).
  rewrite El. destruct (w_pools w !! a) as [p|] eqn:Ep; [|done]. cbn [unwrap bind fmap option_fmap option_map].
  cbn [p_exec px_p px_x]. change (ps_init (St st p)) with (ps_init p). destruct (ps_init p); [|done].
  change (ctx (with_status st a w) sg) with (ctx w sg). change (w_ext (with_status st a w)) with (w_ext w).
  pose proof (St_submit st (ctx w sg) a p (w_ext w) from spender to qs Hb) as Hs.
  destruct (p_submit (ctx w sg) a (mkPX p (w_ext w)) from spender to qs) as [[pos px]|e];
    destruct (p_submit (ctx w sg) a (mkPX (St st p) (w_ext w)) from spender to qs) as [[pos2 px2]|e2]; simpl in Hs; try done.
  - injection Hs as -> ->. cbn [bind fst snd px_p px_x]. f_equal. f_equal. unfold with_status. destruct w as [now sq x ps]. unfold set; simpl. f_equal.
    apply map_eq. intros b. destruct (decide (b = a)) as [->|Hne].
    + rewrite lookup_insert, lookup_alter, lookup_insert. done.
    + rewrite lookup_insert_ne, !lookup_alter_ne, lookup_insert_ne by done. done.
  - by rewrite Hs.
Qed.

(** non-vacuity: in a frozen pool alice repays and withdraws, carol cannot supply, and in a
    pool on ice alice cannot borrow *)
Example C09_frozen_exits :
  is_ok (exec (with_status 5 P1 (run sc0 ops_loan)) (submit_op alice [(5, BBB, 30000000000); (3, AAA, 1000000000)])) = true.
Proof. by vm_compute. Qed.
Example C09_frozen_fill : is_ok (exec (with_status 5 P1 (run sc0 ops_wait)) (submit_op carol [(6, alice, 50)])) = true.
Proof. by vm_compute. Qed.
Example C09_frozen_supply :
  exec (with_status 5 P1 (run sc0 ops_loan)) (submit_op carol [(0, AAA, 1000000000)]) = Err (PoolE 1206).
Proof. by vm_compute. Qed.
Example C09_on_ice_borrow :
  exec (with_status 2 P1 (run sc0 ops_loan)) (submit_op alice [(4, BBB, 1)]) = Err (PoolE 1206).
Proof. by vm_compute. Qed.
