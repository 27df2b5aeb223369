(** * Batches of requests: C70 *)
From Verif Require Import Base Types Token Emitter Factory Backstop PoolReserve PoolUser PoolHealth
  PoolAuction PoolSubmit PoolEmis PoolAdmin World Facts XMove Spec PoolFrame PoolCfg PoolAccrue PoolTrace PoolInv AuctionFacts
  PoolSim PoolReq PoolHF PoolOps PoolLiq PoolReach PoolTx PropsAdmin BackMoves PropsPool1 PropsPool2 PropsPool3.

(** ** Specification *)
(** the two worlds cannot be told apart by anybody: all contract storage and all balances are the same *)
Definition same_world (w w' : World) : Prop :=
  w_now w = w_now w' /\ w_seq w = w_seq w' /\ w_pools w = w_pools w' /\
  x_em (w_ext w) = x_em (w_ext w') /\ x_bs (w_ext w) = x_bs (w_ext w') /\ x_fac (w_ext w) = x_fac (w_ext w') /\
  x_orc (w_ext w) = x_orc (w_ext w') /\ x_lp_supply (w_ext w) = x_lp_supply (w_ext w') /\ x_log (w_ext w) = x_log (w_ext w') /\
  tk_allow (x_tok (w_ext w)) = tk_allow (x_tok (w_ext w')) /\ (forall tok u, held w tok u = held w' tok u).

(** ** Lemmas *)
(** moves are determined by their labels *)
Definition det_lbl (l : label) : bool := match l with LAuct | LEmis _ _ _ _ => false | _ => true end.
Lemma pmove_det now p l q1 q2 : pmove now p l q1 -> pmove now p l q2 -> det_lbl l = true -> q1 = q2.
Proof.
  intros H1 H2 Hl. inversion H1; subst; try done; inversion H2; subst; simplify_eq; try done.
  - match goal with A : accrue _ _ _ _ = Ok _, B : accrue _ _ _ _ = Ok _ |- _ => rewrite A in B; by injection B as <- end.
  - match goal with A : p_emissions _ _ _ _ _ _ _ _ = Ok _, B : p_emissions _ _ _ _ _ _ _ _ = Ok _ |- _ => rewrite A in B; by injection B as <- <- end.
Qed.
Lemma ptrace_det now ls : forall p q1 q2, forallb det_lbl ls = true -> ptrace now p ls q1 -> ptrace now p ls q2 -> q1 = q2.
Proof.
  induction ls as [|l ls IH]; intros p q1 q2 Hl H1 H2; inversion H1; subst; inversion H2; subst; [done|]. apply andb_true_iff in Hl as [Hl Hls].
  match goal with A : pmove _ p l ?x, B : pmove _ p l ?y |- _ => assert (x = y) as -> by (by eapply pmove_det) end. by eapply IH.
Qed.
Lemma lbls_det k u s l : forallb det_lbl (lbls k u s l) = true.
Proof. induction l as [|e l IH]; [done|]. simpl. done. Qed.
Lemma rm_det u a b : forallb det_lbl (rm_lbls u a b) = true.
Proof. unfold rm_lbls. rewrite forallb_app, !lbls_det. done. Qed.
Lemma add_det u a b : forallb det_lbl (add_lbls u a b) = true.
Proof. unfold add_lbls. rewrite forallb_app, !lbls_det. done. Qed.
Lemma cred_det l : forallb det_lbl (cred_lbls l) = true.
Proof. induction l as [|e l IH]; [done|]. simpl. done. Qed.

(** worlds outside the pool that differ in balances only *)
Definition xeq (x y : Ext) : Prop :=
  x_em x = x_em y /\ x_bs x = x_bs y /\ x_fac x = x_fac y /\ x_orc x = x_orc y /\ x_lp_supply x = x_lp_supply y /\ x_log x = x_log y /\ tk_allow (x_tok x) = tk_allow (x_tok y).
Lemma xeq_refl x : xeq x x. Proof. done. Qed.
(** balances change by the same amounts *)
Definition teq (x1 x1' x2 x2' : Ext) : Prop :=
  forall tok u, balance (x_tok x1') tok u - balance (x_tok x1) tok u = balance (x_tok x2') tok u - balance (x_tok x2) tok u.
Definition aeq (a1 a1' a2 a2' : Actions) : Prop :=
  forall r, getz (ac_spender a1') r - getz (ac_spender a1) r = getz (ac_spender a2') r - getz (ac_spender a2) r /\
    getz (ac_pool a1') r - getz (ac_pool a1) r = getz (ac_pool a2') r - getz (ac_pool a2) r.

Lemma draw_det c x1 x2 p n t y1 y2 : xeq x1 x2 -> b_draw c x1 p n t = Ok y1 -> b_draw c x2 p n t = Ok y2 -> xeq y1 y2 /\ teq x1 y1 x2 y2.
Proof.
  intros (E1 & E2 & E3 & E4 & E5 & E6 & E7) H1 H2. unfold b_draw in H1, H2. mon H1. mon H2. subst. unfold get_pb in *. rewrite E2 in *. simplify_eq.
  match goal with A : pb_withdraw _ _ _ = Ok _, B : pb_withdraw _ _ _ = Ok _ |- _ => rewrite A in B; injection B as <- end.
  repeat match goal with H : transfer _ _ _ _ _ _ = Ok _ |- _ => apply transfer_move in H as [_ H]; apply tok_move_spec in H as (_ & ? & _ & ? & _) end.
  simpl in *. split; [unfold xeq; simpl; rewrite ?E1, ?E2, ?E3, ?E4, ?E5, ?E6; repeat split; congruence|]. intros tok u. simpl.
  repeat match goal with H : forall k a, balance _ k a = _ |- _ => rewrite H; clear H end. rewrite ?E2. lia.
Qed.

Lemma donate_det c x1 x2 f p n y1 y2 : xeq x1 x2 -> b_donate c x1 f p n = Ok y1 -> b_donate c x2 f p n = Ok y2 -> xeq y1 y2 /\ teq x1 y1 x2 y2.
Proof.
  intros (E1 & E2 & E3 & E4 & E5 & E6 & E7) H1 H2. unfold b_donate in H1, H2. mon H1. mon H2. subst. unfold get_pb in *. rewrite E2 in *. simplify_eq.
  match goal with A : pb_deposit _ _ _ = Ok _, B : pb_deposit _ _ _ = Ok _ |- _ => rewrite A in B; injection B as <- end.
  repeat match goal with H : transfer _ _ _ _ _ _ = Ok _ |- _ => apply transfer_move in H as [_ H]; apply tok_move_spec in H as (_ & ? & _ & ? & _) end.
  simpl in *. split; [unfold xeq; simpl; rewrite ?E1, ?E2, ?E3, ?E4, ?E5, ?E6; repeat split; congruence|]. intros tok u. simpl.
  repeat match goal with H : forall k a, balance _ k a = _ |- _ => rewrite H; clear H end. rewrite ?E2. lia.
Qed.
Lemma transfer_all_allow c from to t m t' : transfer_all c from to t m = Ok t' -> tk_allow t' = tk_allow t.
Proof.
  unfold transfer_all. revert t. induction (entries m) as [|e l IH]; intros t H; cbn [foldM] in H; [by injection H as ->|]. apply bind_ok in H as (t1 & E & H). apply IH in H as ->. by eapply transfer_allow.
Qed.
Lemma acted_eq m1 m1' m2 m2' a n : acted m1 m1' a n -> acted m2 m2' a n -> forall r, getz m1' r - getz m1 r = getz m2' r - getz m2 r.
Proof. intros H1 H2 r. rewrite H1, H2. lia. Qed.
Lemma foldr_log self (L : PoolSt) l x y : xeq x y -> let f := fun (e : Addr * Z) x => add_log (EvBurn self e.1 e.2 (match ps_rdata L !! e.1 with Some d => rd_d_rate d | None => 0 end)) x in
  xeq (foldr f x l) (foldr f y l) /\ x_tok (foldr f x l) = x_tok x /\ x_tok (foldr f y l) = x_tok y.
Proof.
  intros H f. induction l as [|e l (IH & T1 & T2)]; [done|]. cbn [foldr]. destruct IH as (E1 & E2 & E3 & E4 & E5 & E6 & E7). unfold xeq, f at 1 3 5 7 9 11. simpl.
  split; [|done]. unfold xeq. simpl. repeat split; try done. by rewrite E6.
Qed.

Ltac scales := simplify_eq;
  match goal with A : scale_auction _ _ _ = Ok _, B : scale_auction _ _ _ = Ok _ |- _ => rewrite A in B; injection B as <- <- end;
  try match goal with A : call_backstop_token ?L ?x = Ok _, B : call_backstop_token ?L ?y = Ok _, X : xeq ?x ?y |- _ =>
    assert (call_backstop_token L x = call_backstop_token L y) as Ecb by (unfold call_backstop_token; by rewrite (proj1 (proj2 X))); rewrite Ecb in A; rewrite A in B; injection B as <- end;
  simplify_eq.
Lemma areq_det c self from q s1 s2 l1 l2 s1' s2' :
  as_p s1 = as_p s2 -> xeq (as_x s1) (as_x s2) ->
  areq c self from q s1 l1 s1' -> areq c self from q s2 l2 s2' ->
  as_p s1' = as_p s2' /\ xeq (as_x s1') (as_x s2') /\ teq (as_x s1) (as_x s1') (as_x s2) (as_x s2') /\ aeq (as_ac s1) (as_ac s1') (as_ac s2) (as_ac s2').
Proof.
  intros Hp Hx H1 H2. inversion H1; subst; inversion H2; subst; try lia; cbn [as_p as_x as_ac] in *; subst.
  - match goal with A : pmove _ ?p (LAcc ?a) ?x, B : pmove _ ?p (LAcc ?a) ?y |- _ => assert (x = y) as -> by (exact (pmove_det _ _ _ _ _ A B eq_refl)) end. simplify_eq.
    match goal with A : flow _ _ _ _ = _, B : flow _ _ _ _ = _ |- _ => rewrite A in B; injection B as <- <- <- end.
    match goal with A : pmove _ ?p (LPos ?k ?u ?a ?d) ?x, B : pmove _ ?p (LPos ?k ?u ?a ?d) ?y |- _ => assert (x = y) as -> by (exact (pmove_det _ _ _ _ _ A B eq_refl)) end.
    split; [done|]. split; [done|]. split; [intros ? ?; lia|]. intros r. split; by eapply acted_eq.
  - scales. match goal with A : ptrace _ ?p ?l ?x, B : ptrace _ ?p ?l ?y |- _ => assert (x = y) as -> end.
    { eapply ptrace_det; [|eassumption|eassumption]. cbn [forallb]. rewrite forallb_app, rm_det, add_det. done. }
    split; [done|]. split; [done|]. split; [intros ? ?; lia|]. intros r. split; lia.
  - scales.
    match goal with A : ptrace _ ?p ?l ?x, B : ptrace _ ?p ?l ?y |- _ => assert (x = y) as -> end.
    { eapply ptrace_det; [|eassumption|eassumption]. cbn [forallb]. rewrite forallb_app, rm_det, add_det. done. }
    match goal with A : b_draw _ _ _ _ _ = Ok ?x, B : b_draw _ _ _ _ _ = Ok ?y |- _ => destruct (draw_det _ _ _ _ _ _ _ _ Hx A B) as [X1 T1]; rename x into xa; rename y into xb end.
    assert (call_pool_data L0 xa self = call_pool_data L0 xb self) as Epd by (unfold call_pool_data, pool_data, get_pb; by rewrite (proj1 (proj2 X1))).
    match goal with A : (m = _ /\ _ /\ _) \/ _, B : (m0 = _ /\ _ /\ _) \/ _ |- _ => rename A into HA; rename B into HB end.
    assert (m0 = m /\ ((x2 = xa /\ x4 = xb) \/ (x2 = foldr (fun e x => add_log (EvBurn self e.1 e.2 (match ps_rdata L2 !! e.1 with Some d => rd_d_rate d | None => 0 end)) x) xa (entries m) /\
      x4 = foldr (fun e x => add_log (EvBurn self e.1 e.2 (match ps_rdata L4 !! e.1 with Some d => rd_d_rate d | None => 0 end)) x) xb (entries m0)))) as [-> Hxx].
    { destruct HA as [(A1 & A2 & A3)|(A1 & A2 & (pd & A3 & A4) & A5)]; destruct HB as [(B1 & B2 & B3)|(B1 & B2 & (pd' & B3 & B4) & B5)].
      - split; [congruence|]. by left.
      - exfalso. destruct A3 as [A3|(pd & A3 & A4)]; [done|]. rewrite Epd, B3 in A3. injection A3 as <-. lia.
      - exfalso. destruct B3 as [B3|(pd' & B3 & B4)]; [done|]. rewrite Epd, B3 in A3. injection A3 as <-. lia.
      - rewrite A2 in B2. injection B2 as <-. split; [done|]. by right. }
    clear HA HB.
    match goal with A : ptrace _ ?p (rm_lbls ?u ?a ?b) ?x, B : ptrace _ ?p (rm_lbls ?u ?a ?b) ?y |- _ => assert (x = y) as -> by (exact (ptrace_det _ _ _ _ _ (rm_det _ _ _) A B)) end.
    split; [done|].
    assert (xeq x2 x4 /\ x_tok x2 = x_tok xa /\ x_tok x4 = x_tok xb) as (X2 & T2 & T3).
    { destruct Hxx as [[-> ->]|[-> ->]]; [done|]. by apply foldr_log. }
    split; [done|]. split; [|intros r; split; lia]. intros tok u. rewrite T2, T3. apply T1.
  - scales.
    match goal with A : ptrace _ ?p ?l ?x, B : ptrace _ ?p ?l ?y |- _ => assert (x = y) as -> end.
    { eapply ptrace_det; [|eassumption|eassumption]. apply cred_det. }
    match goal with A : b_donate _ _ _ _ _ = Ok ?x, B : b_donate _ _ _ _ _ = Ok ?y |- _ => destruct (donate_det _ _ _ _ _ _ _ _ Hx A B) as [X1 T1]; rename x into xa; rename y into xb end.
    split; [done|]. repeat match goal with H : transfer_all _ _ _ _ _ = Ok _ |- _ => pose proof (transfer_all_allow _ _ _ _ _ _ H); pose proof (transfer_all_spec _ _ _ _ _ _ H); clear H end.
    destruct X1 as (E1 & E2 & E3 & E4 & E5 & E6 & E7). split; [unfold xeq; simpl; repeat split; congruence|]. split; [|intros r; split; lia].
    intros tok u. specialize (T1 tok u). simpl. repeat match goal with H : forall tok a, balance _ tok a = _ |- _ => rewrite H; clear H end. lia.
  - split; [done|]. split; [done|]. split; [intros ? ?; lia|]. intros r. split; lia.
Qed.

Lemma areqs_det c self from qs : forall s1 s2 l1 l2 s1' s2',
  as_p s1 = as_p s2 -> xeq (as_x s1) (as_x s2) ->
  areqs c self from s1 qs l1 s1' -> areqs c self from s2 qs l2 s2' ->
  as_p s1' = as_p s2' /\ xeq (as_x s1') (as_x s2') /\ teq (as_x s1) (as_x s1') (as_x s2) (as_x s2') /\ aeq (as_ac s1) (as_ac s1') (as_ac s2) (as_ac s2').
Proof.
  induction qs as [|q qs IH]; intros s1 s2 l1 l2 s1' s2' Hp Hx H1 H2; inversion H1; subst; inversion H2; subst.
  - split; [done|]. split; [done|]. split; [intros ? ?; lia|]. intros r. split; lia.
  - match goal with A : areq _ _ _ _ s1 _ _, B : areq _ _ _ _ s2 _ _ |- _ => destruct (areq_det _ _ _ _ _ _ _ _ _ _ Hp Hx A B) as (P1 & X1 & T1 & A1) end.
    match goal with A : areqs _ _ _ _ qs _ s1', B : areqs _ _ _ _ qs _ s2' |- _ => destruct (IH _ _ _ _ _ _ P1 X1 A B) as (P2 & X2 & T2 & A2) end.
    split; [done|]. split; [done|]. split.
    + intros tok u. specialize (T1 tok u). specialize (T2 tok u). lia.
    + intros r. specialize (A1 r). specialize (A2 r). lia.
Qed.
Lemma pos_kept now p l q u : is_Some (ps_pos p !! u) -> ptrace now p l q -> is_Some (ps_pos q !! u).
Proof.
  intros H T. refine (ptrace_inv (fun p => is_Some (ps_pos p !! u)) _ _ _ _ _ H T). clear. intros p l q H M.
  destruct M as [| k u' a dl cfg d n p1 _ _ _ _ E _ _ | | k u' a cfg d cl n p1 _ _ E | u' |]; cbn -[get_pos]; try exact H.
  - by apply lookup_insert_is_Some'; right.
  - apply p_emissions_emis in E. rewrite (emis_pos _ _ E). done.
  - by apply lookup_insert_is_Some'; right.
Qed.

Lemma touch_id p u : is_Some (ps_pos p !! u) -> touch p u = p.
Proof. intros [y H]. unfold touch. assert (get_pos p u = y) as -> by (unfold get_pos; by rewrite H). rewrite insert_id by done. by destruct p. Qed.
Lemma exec_pools w sg a po out w' : exec w (OPool sg a po) = Ok (out, w') -> w_pools w' = <[a := pool w' a]> (w_pools w).
Proof.
  unfold exec. intros H. apply assert_ok in H as [G H]. apply bind_ok in H as (p & E & H). apply bind_ok in H as ([o px] & Ex & H). injection H as <- <-.
  unfold pool. simpl. rewrite lookup_insert. done.
Qed.

(** ** C70: sending requests together or one after the other makes no difference *)
(** If a list of requests is accepted as one submission and also as two submissions one right after the other, then the two ways
    end in the same world: the same positions, reserves, auctions, emissions, backstop, allowances and token balances, and the caller
    gets the same answer. (Being accepted is a different matter: the health and position checks are made at the end of each submission
    and a submission pays the net amounts.) *)
Theorem C70_batching w sg a from spender to qs1 qs2 out w' out1 w1 out2 w2 :
  reachable w ->
  exec w (OPool sg a (PSubmit from spender to (qs1 ++ qs2))) = Ok (out, w') ->
  exec w (OPool sg a (PSubmit from spender to qs1)) = Ok (out1, w1) ->
  exec w1 (OPool sg a (PSubmit from spender to qs2)) = Ok (out2, w2) ->
  out = out2 /\ same_world w' w2.
Proof.
  intros Hr H12 H1 H2.
  assert (reachable w1) as Hr1. { exact (reachable_step _ _ _ _ Hr H1). }
  pose proof (exec_opool _ _ _ _ _ _ H12) as (_ & N12 & S12 & _). pose proof (exec_opool _ _ _ _ _ _ H1) as (_ & N1 & S1 & _). pose proof (exec_opool _ _ _ _ _ _ H2) as (_ & N2 & S2 & _).
  pose proof (exec_pools _ _ _ _ _ _ H12) as P12. pose proof (exec_pools _ _ _ _ _ _ H1) as P1. pose proof (exec_pools _ _ _ _ _ _ H2) as P2.
  apply submit_tx in H12 as (_ & _ & _ & _ & _ & Hfa & Hsa & Hta & _ & ls & x & ac & chk & ta & tb & pos & -> & Hpos & Q & T1 & T2 & X & _); [|done].
  apply submit_tx in H1 as (_ & _ & _ & _ & _ & _ & _ & _ & _ & lsa & xa & aca & chka & taa & tba & posa & _ & _ & Qa & Ta1 & Ta2 & Xa & _); [|done].
  apply submit_tx in H2 as (_ & _ & _ & _ & _ & _ & _ & _ & _ & lsb & xb & acb & chkb & tab & tbb & posb & -> & Hposb & Qb & Tb1 & Tb2 & Xb & _); [|done].
  apply areqs_app in Q as (sm & l1 & l2 & Q1 & Q2 & ->).
  destruct (areqs_det _ _ _ _ _ _ _ _ _ _ eq_refl (xeq_refl _) Q1 Qa) as (EP1 & EX1 & ET1 & EA1). cbn [as_p as_x as_ac] in *.
  assert (c_now (ctx w1 sg) = c_now (ctx w sg)) as En by exact N1. assert (ctx w1 sg = ctx w sg) as Ec by (unfold ctx; by rewrite N1, S1). rewrite Ec in *.
  assert (touch (pool w1 a) from = pool w1 a) as Et.
  { apply touch_id. refine (pos_kept _ _ _ _ _ _ (areqs_trace _ _ _ _ _ _ _ Qa)). cbn [as_p touch]. unfold touch. simpl. rewrite lookup_insert. by eexists. }
  rewrite Et in Qb.
  pose proof (transfer_all_allow _ _ _ _ _ _ T1) as L1. pose proof (transfer_all_allow _ _ _ _ _ _ T2) as L2.
  pose proof (transfer_all_allow _ _ _ _ _ _ Ta1) as La1. pose proof (transfer_all_allow _ _ _ _ _ _ Ta2) as La2.
  pose proof (transfer_all_allow _ _ _ _ _ _ Tb1) as Lb1. pose proof (transfer_all_allow _ _ _ _ _ _ Tb2) as Lb2.
  assert (xeq (as_x sm) (w_ext w1)) as EX.
  { destruct EX1 as (E1 & E2 & E3 & E4 & E5 & E6 & E7). rewrite Xa. unfold xeq. simpl. repeat split; congruence. }
  destruct (areqs_det _ _ _ _ sm (mkAS (pool w1 a) (w_ext w1) no_actions false) _ _ _ _ EP1 EX Q2 Qb) as (EP2 & EX2 & ET2 & EA2). cbn [as_p as_x as_ac] in *.
  assert (pool w' a = pool w2 a) as EP by exact EP2.
  split; [by rewrite Hpos, Hposb, EP|].
  destruct EX2 as (E1 & E2 & E3 & E4 & E5 & E6 & E7). unfold same_world. rewrite X, Xb. cbn [x_em x_bs x_fac x_orc x_lp_supply x_log x_tok].
  split; [congruence|]. split; [congruence|]. split. { rewrite P12, P2, P1, EP, insert_insert. done. }
  simpl. do 6 (split; [congruence|]). split; [congruence|].
  intros tok u. unfold held. rewrite X, Xb. simpl. specialize (ET1 tok u). specialize (ET2 tok u). destruct (EA1 tok) as [EA1s EA1p]. destruct (EA2 tok) as [EA2s EA2p].
  rewrite Xa in ET2. simpl in *.
  rewrite (transfer_all_spec _ _ _ _ _ _ T2), (transfer_all_spec _ _ _ _ _ _ T1), (transfer_all_spec _ _ _ _ _ _ Tb2), (transfer_all_spec _ _ _ _ _ _ Tb1).
  rewrite (transfer_all_spec _ _ _ _ _ _ Ta2), (transfer_all_spec _ _ _ _ _ _ Ta1) in ET2.
  assert (forall r, getz (∅ : gmap Addr Z) r = 0) as Z0 by (intros r; unfold getz; by rewrite lookup_empty). rewrite !Z0 in *.
  destruct (u =? to), (u =? a), (u =? spender); lia.
Qed.
