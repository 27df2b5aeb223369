(** * Frame facts of pool calls: which part of the pool storage they can write *)
From Verif Require Import Base Types Token Emitter Factory Backstop PoolReserve PoolUser PoolHealth
  PoolAuction PoolSubmit PoolEmis PoolAdmin World Facts.

(** everything but reserve data, emission data, user emissions, positions and auctions *)
Definition same_cfg (p p' : PoolSt) : Prop :=
  ps_init p' = ps_init p /\ ps_admin p' = ps_admin p /\ ps_backstop p' = ps_backstop p /\
  ps_blnd p' = ps_blnd p /\ ps_config p' = ps_config p /\ ps_list p' = ps_list p /\
  ps_rcfg p' = ps_rcfg p /\ ps_queue p' = ps_queue p /\ ps_ecfg p' = ps_ecfg p /\ ps_pemis p' = ps_pemis p.
Lemma cfg_refl p : same_cfg p p. Proof. unfold same_cfg; tauto. Qed.
Lemma cfg_trans p q r : same_cfg p q -> same_cfg q r -> same_cfg p r.
Proof. unfold same_cfg. intuition congruence. Qed.
#[export] Hint Resolve cfg_refl : core.

(** emission updates write emission data and user emissions only *)
Definition same_but_emis (p p' : PoolSt) : Prop :=
  p' = p <| ps_edata := ps_edata p' |> <| ps_uemis := ps_uemis p' |>.
Lemma emis_refl p : same_but_emis p p. Proof. by destruct p. Qed.
Lemma emis_trans p q r : same_but_emis p q -> same_but_emis q r -> same_but_emis p r.
Proof. unfold same_but_emis. intros H1 H2. rewrite H2, H1. by destruct p. Qed.
#[export] Hint Resolve emis_refl : core.
Lemma emis_cfg p p' : same_but_emis p p' -> same_cfg p p'.
Proof. intros ->. done. Qed.
Lemma emis_rdata p p' : same_but_emis p p' -> ps_rdata p' = ps_rdata p.
Proof. intros ->. done. Qed.
Lemma emis_pos p p' : same_but_emis p p' -> ps_pos p' = ps_pos p.
Proof. intros ->. done. Qed.
Lemma emis_auct p p' : same_but_emis p p' -> ps_auct p' = ps_auct p.
Proof. intros ->. done. Qed.

Lemma update_edata_emis now p id s sc cfg d p' :
  update_edata now p id s sc cfg = Ok (d, p') -> same_but_emis p p'.
Proof.
  unfold update_edata. intros H. mon H. destruct (_ || _); mon H; [done|]. by destruct p.
Qed.
Lemma update_user_emis_emis p d id sc u bal cl n p' :
  update_user_emis p d id sc u bal cl = Ok (n, p') -> same_but_emis p p'.
Proof.
  unfold update_user_emis, set_user_emis. intros H.
  destruct (ps_uemis p !! _); [destruct (_ || _)|]; [destruct (bal =? 0)| |destruct (bal =? 0)];
    mon H; destruct cl; simplify_eq; auto; try (by destruct p'); unfold same_but_emis, set_uemis; simpl; by destruct p.
Qed.
Lemma p_emissions_emis now p id s sc u bal cl n p' :
  p_emissions now p id s sc u bal cl = Ok (n, p') -> same_but_emis p p'.
Proof.
  unfold p_emissions. intros H. destruct (ps_ecfg p !! id); mon H; [|done].
  eapply emis_trans; [by eapply update_edata_emis|by eapply update_user_emis_emis].
Qed.
Lemma upd_d_emis_emis now p u r bal p' : upd_d_emis now p u r bal = Ok p' -> same_but_emis p p'.
Proof. unfold upd_d_emis. intros H. mon H. by eapply p_emissions_emis. Qed.
Lemma upd_b_emis_emis now p u r bal p' : upd_b_emis now p u r bal = Ok p' -> same_but_emis p p'.
Proof. unfold upd_b_emis. intros H. mon H. by eapply p_emissions_emis. Qed.

(** ** The six position changes, in one form *)
Inductive kind := KLiab | KColl | KSup.
Definition get_k (k : kind) (pos : Positions) : gmap Z Z :=
  match k with KLiab => po_liab pos | KColl => po_coll pos | KSup => po_sup pos end.
Definition set_k (k : kind) (m : gmap Z Z) (pos : Positions) : Positions :=
  match k with
  | KLiab => pos <| po_liab := m |>
  | KColl => pos <| po_coll := m |>
  | KSup => pos <| po_sup := m |>
  end.
(** reserve token id: dTokens 2i, bTokens 2i+1 *)
Definition tid (k : kind) (i : Z) : Z := match k with KLiab => i * 2 | _ => i * 2 + 1 end.
Definition sup_k (k : kind) (d : ResData) : Z := match k with KLiab => rd_d_supply d | _ => rd_b_supply d end.
Definition set_sup_k (k : kind) (v : Z) (d : ResData) : ResData :=
  match k with KLiab => d <| rd_d_supply := v |> | _ => d <| rd_b_supply := v |> end.
(** the balance that earns emissions *)
Definition ebal (k : kind) (pos : Positions) (i : Z) : Z :=
  match k with KLiab => get_liab pos i | _ => get_coll pos i + get_sup pos i end.

(** a position change by [amt] (positive or negative) *)
Definition pos_fun := Z -> PoolSt -> Addr -> Positions -> Reserve -> Z -> res (PoolSt * Positions * Reserve).
Definition is_add (k : kind) (f : pos_fun) : Prop :=
  match k with KLiab => f = add_liabilities | KColl => f = add_collateral | KSup => f = add_supply end.
Definition is_rem (k : kind) (f : pos_fun) : Prop :=
  match k with KLiab => f = remove_liabilities | KColl => f = remove_collateral | KSup => f = remove_supply end.

Definition changed (now : Z) (k : kind) (p : PoolSt) (u : Addr) (pos : Positions) (r : Reserve) (d : Z)
  (p' : PoolSt) (pos' : Positions) (r' : Reserve) : Prop :=
  let i := r_index r in
  let nb := getz (get_k k pos) i + d in
  (exists n, p_emissions now p (tid k i) (sup_k k (r_data r)) (r_scalar r) u (ebal k pos i) false = Ok (n, p')) /\
  i128_min <= nb <= i128_max /\
  i128_min <= sup_k k (r_data r) + d <= i128_max /\
  r' = r <| r_data := set_sup_k k (sup_k k (r_data r) + d) (r_data r) |>.

Lemma add_changed k f now p u pos r amt p' pos' r' :
  is_add k f -> f now p u pos r amt = Ok (p', pos', r') ->
  amt <> 0 /\ changed now k p u pos r amt p' pos' r' /\
  pos' = set_k k (<[r_index r := getz (get_k k pos) (r_index r) + amt]> (get_k k pos)) pos.
Proof.
  intros Hf H. unfold changed. destruct k; simpl in Hf; subst f;
    [unfold add_liabilities in H|unfold add_collateral in H|unfold add_supply in H]; mon H;
    unfold upd_d_emis, upd_b_emis, get_total in *;
    repeat match goal with E : i128 _ = Ok _ |- _ => apply i128_ok in E as [-> ?] end;
    match goal with E : bind _ _ = Ok _ |- _ => mon E end;
    (split; [lia|]); simpl; (split; [|reflexivity]); repeat split; eauto;
    unfold get_liab, get_coll, get_sup in *; try lia.
Qed.

Lemma rem_changed k f now p u pos r amt p' pos' r' :
  is_rem k f -> f now p u pos r amt = Ok (p', pos', r') ->
  amt <> 0 /\ changed now k p u pos r (- amt) p' pos' r' /\ 0 <= getz (get_k k pos) (r_index r) - amt /\
  pos' = set_k k (put (get_k k pos) (r_index r) (getz (get_k k pos) (r_index r) - amt)) pos.
Proof.
  intros Hf H. unfold changed. destruct k; simpl in Hf; subst f;
    [unfold remove_liabilities in H|unfold remove_collateral in H|unfold remove_supply in H]; mon H;
    unfold upd_d_emis, upd_b_emis, get_total, p_nonneg in *;
    repeat match goal with E : i128 _ = Ok _ |- _ => apply i128_ok in E as [-> ?] end;
    match goal with E : (if ?b then Err _ else Ok tt) = Ok _ |- _ => destruct b eqn:?; [discriminate E|] end;
    repeat match goal with E : bind _ _ = Ok _ |- _ => mon E end;
    unfold get_liab, get_coll, get_sup, set_d_supply, set_b_supply in *;
    (split; [lia|]); simpl; repeat split; eauto; try lia.
Qed.

Lemma changed_emis now k p u pos r d p' pos' r' :
  changed now k p u pos r d p' pos' r' -> same_but_emis p p'.
Proof. intros ((n & H) & _). by eapply p_emissions_emis. Qed.

Lemma pos_fun_emis k f now p u pos r amt p' pos' r' :
  is_add k f \/ is_rem k f -> f now p u pos r amt = Ok (p', pos', r') -> same_but_emis p p'.
Proof.
  intros [Hf|Hf] H; [apply (add_changed k) in H as (_ & H & _)|apply (rem_changed k) in H as (_ & H & _)];
    auto; by eapply changed_emis.
Qed.

(** ** Loops *)
Lemma pos_step_emis k f now u p ch pos e p' ch' pos' :
  is_add k f \/ is_rem k f -> pos_step f now u (p, ch, pos) e = Ok (p', ch', pos') -> same_but_emis p p'.
Proof. intros Hf H. unfold pos_step in H. mon H. by eapply pos_fun_emis. Qed.

Lemma pos_steps_emis k f now u l s s' :
  is_add k f \/ is_rem k f -> foldM (pos_step f now u) s l = Ok s' -> same_but_emis (fst (fst s)) (fst (fst s')).
Proof.
  intros Hf H.
  eapply (foldM_rel (fun s s' => same_but_emis (fst (fst s)) (fst (fst s')))) in H; [exact H|done|..].
  - intros; by eapply emis_trans.
  - intros [[p ch] pos] e [[p' ch'] pos'] _ Hs. by eapply pos_step_emis.
Qed.
Lemma rm_positions_emis now u s coll liab s' :
  rm_positions now u s coll liab = Ok s' -> same_but_emis (fst (fst s)) (fst (fst s')).
Proof.
  unfold rm_positions. intros H. mon H.
  eapply emis_trans; [eapply (pos_steps_emis KColl)|eapply (pos_steps_emis KLiab)]; eauto; by right.
Qed.
Lemma add_positions_emis now u s coll liab s' :
  add_positions now u s coll liab = Ok s' -> same_but_emis (fst (fst s)) (fst (fst s')).
Proof.
  unfold add_positions. intros H. mon H.
  eapply emis_trans; [eapply (pos_steps_emis KColl)|eapply (pos_steps_emis KLiab)]; eauto; by left.
Qed.

(** ** Calls *)
Lemma fill_cfg c self p x ch t user filler fpos pct p' ch' fpos' x' :
  fill c self p x ch t user filler fpos pct = Ok ((p', ch', fpos'), x') -> same_cfg p p'.
Proof.
  unfold fill. intros H. mon H.
  match goal with |- context [match ?r with _ => _ end] => set (rm := r) end.
  assert (forall q, same_cfg p q -> same_cfg p (match rm with Some a => set_auction q t user a | None => del_auction q t user end)) as Ha.
  { intros q Hq. by destruct rm. }
  apply Ha. clear Ha.
  destruct (t =? 0).
  { mon E1. unfold fill_user_liq in E2. mon E2.
    apply rm_positions_emis, emis_cfg in E1. apply add_positions_emis, emis_cfg in E3. simpl in *.
    eapply cfg_trans; [exact E1|]. eapply cfg_trans; [exact E3|]. done. }
  destruct (t =? 1).
  { unfold fill_bad_debt in E1. mon E1.
    apply rm_positions_emis, emis_cfg in E2. apply add_positions_emis, emis_cfg in E3. simpl in *.
    assert (same_cfg p p3) by (eapply cfg_trans; eauto).
    destruct (bool_decide _); [mon E1; done|]. mon E1.
    destruct (_ <? 3); mon E1; [|done].
    apply rm_positions_emis, emis_cfg in E9. simpl in *. eapply cfg_trans; [eassumption|]. done. }
  destruct (t =? 2); mon E1. done.
Qed.

Lemma do_request_cfg c self from s q s' :
  do_request c self from s q = Ok s' -> same_cfg (lo_p s) (lo_p s').
Proof.
  unfold do_request. intros H. mon H.
  assert (forall t chk, do_fill c self from t chk s q = Ok s' -> same_cfg (lo_p s) (lo_p s')) as Hf.
  { intros t chk Hd. unfold do_fill in Hd. mon Hd. simpl. by eapply fill_cfg. }
  repeat match type of H with
  | match ?x with _ => _ end = Ok _ => destruct x
  | Err _ = Ok _ => discriminate H
  end; try (by eapply Hf);
  unfold do_supply, do_delete, do_repay, do_withdraw_coll, do_borrow, do_supply_coll, do_withdraw in H;
  mon H; try (destruct (_ <? _); mon H); simpl;
  try (eapply emis_cfg;
       first [eapply (pos_fun_emis KLiab); [|eassumption]; (left; reflexivity) || (right; reflexivity)
             |eapply (pos_fun_emis KColl); [|eassumption]; (left; reflexivity) || (right; reflexivity)
             |eapply (pos_fun_emis KSup); [|eassumption]; (left; reflexivity) || (right; reflexivity)]).
  unfold delete_liquidation in E1. by mon E1.
Qed.

Lemma store_cached_cfg p ch p' : store_cached p ch = Ok p' -> same_cfg p p'.
Proof.
  unfold store_cached. intros H.
  eapply (foldM_rel same_cfg) in H; [exact H|done|intros; by eapply cfg_trans|].
  intros q a q' _ Hs. by mon Hs.
Qed.

Lemma submit_cfg c self px from spender to qs pos px' :
  p_submit c self px from spender to qs = Ok (pos, px') -> same_cfg (px_p px) (px_p px').
Proof.
  unfold p_submit, build_actions. intros H. mon H. simpl.
  apply store_cached_cfg in E4.
  assert (same_cfg (px_p px) (lo_p s)) as H1.
  { clear -E1. mon E1. subst.
    eapply (foldM_rel (fun s s' => same_cfg (lo_p s) (lo_p s'))) in E; [exact E|done|..].
    - intros; by eapply cfg_trans.
    - intros; by eapply do_request_cfg. }
  eapply cfg_trans; [exact H1|]. eapply cfg_trans; [exact E4|]. done.
Qed.

Lemma bad_debt_cfg c p u p' : p_bad_debt c p u = Ok p' -> same_cfg p p'.
Proof.
  unfold p_bad_debt. intros H. mon H.
  apply store_cached_cfg in E0.
  eapply (foldM_rel (fun s s' => same_cfg (fst (fst (fst s))) (fst (fst (fst s'))))) in E;
    [|done|intros; by eapply cfg_trans|].
  - eapply cfg_trans; [exact E|]. simpl in *. eapply cfg_trans; [exact E0|]. done.
  - intros [[[q ch] up] bp] e [[[q' ch'] up'] bp'] _ Hs. unfold bad_debt_step in Hs. mon Hs. simpl.
    eapply cfg_trans; eapply emis_cfg, (pos_fun_emis KLiab); eauto; simpl; auto.
Qed.

Lemma create_liquidation_cfg c self p x u n a p' :
  create_liquidation c self p x u n = Ok (a, p') -> same_cfg p p'.
Proof.
  unfold create_liquidation, create_user_liq. intros H. mon H.
  destruct (n =? 100); mon E; [done|].
  match goal with E : rm_positions _ _ _ _ _ = Ok _ |- _ => apply rm_positions_emis, emis_cfg in E; exact E end.
Qed.
Lemma create_bad_debt_cfg c self p x a p' :
  create_bad_debt c self p x = Ok (a, p') -> same_cfg p p'.
Proof. unfold create_bad_debt. intros H. by mon H. Qed.
Lemma create_interest_cfg c self p x l a p' :
  create_interest c self p x l = Ok (a, p') -> same_cfg p p'.
Proof. unfold create_interest. intros H. by mon H. Qed.

Lemma p_claim_emis c self px from ids to n px' :
  p_claim c self px from ids to = Ok (n, px') -> same_but_emis (px_p px) (px_p px').
Proof.
  unfold p_claim. intros H. mon H.
  eapply (foldM_rel (fun s s' => same_but_emis (snd s) (snd s'))) in E0; [|done|intros; by eapply emis_trans|].
  - simpl in E0. destruct (0 <? _); mon H; done.
  - intros [t q] e [t' q'] _ Hs. unfold p_claim_one in Hs. mon Hs. simpl. by eapply p_emissions_emis.
Qed.

Lemma update_res_ecfg_frame now p a id n p' :
  update_res_ecfg now p a id n = Ok p' ->
  p' = p <| ps_edata := ps_edata p' |> <| ps_ecfg := ps_ecfg p' |>.
Proof.
  unfold update_res_ecfg. intros H. mon H. destruct (ps_ecfg p !! id); mon E.
  - match goal with H : update_edata _ _ _ _ _ _ = Ok (?d, ?q) |- _ =>
      assert (q = p <| ps_edata := ps_edata q |>) as Hq;
        [clear -H; unfold update_edata in H; mon H; destruct (_ || _); mon H; (by destruct q) || by destruct p|] end.
    destruct (_ <? _); mon E; destruct (negb _); rewrite Hq; by destruct p.
  - by destruct p.
Qed.
Lemma do_gulp_frame now p n p' :
  do_gulp now p n = Ok p' -> p' = p <| ps_edata := ps_edata p' |> <| ps_ecfg := ps_ecfg p' |>.
Proof.
  unfold do_gulp. intros H. mon H.
  eapply (foldM_rel (fun p p' => p' = p <| ps_edata := ps_edata p' |> <| ps_ecfg := ps_ecfg p' |>)) in H; [exact H|..].
  - intros s. by destruct s.
  - intros p1 p2 p3 H1 H2. rewrite H2, H1. by destruct p1.
  - intros q e q' _ Hs. unfold gulp_res in Hs. mon Hs. by eapply update_res_ecfg_frame.
Qed.
Lemma p_gulp_frame c self px n px' :
  p_gulp c self px = Ok (n, px') ->
  px_p px' = px_p px <| ps_edata := ps_edata (px_p px') |> <| ps_ecfg := ps_ecfg (px_p px') |>.
Proof. unfold p_gulp. intros H. mon H. simpl. by eapply do_gulp_frame. Qed.
