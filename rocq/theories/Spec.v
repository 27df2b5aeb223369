(** * Spec: vocabulary of the property statements

    Nothing here mentions how a contract computes its result; these are sums over
    histories and over token holders, and the observers of the API. *)
From Verif Require Import Base Types Token PoolUser World Facts.

(** ** Histories *)

(** the total of [f] over all transactions of a history; [f w o w'] sees the world
    before, the transaction and the world after *)
Fixpoint sumh (f : World -> Op -> World -> Z) (w : World) (l : list Op) : Z :=
  match l with
  | [] => 0
  | o :: l' => f w o (step w o) + sumh f (step w o) l'
  end.

(** the value returned by a successful call, 0 if it fails or returns no number *)
Definition returned (w : World) (o : Op) : Z :=
  match exec w o with Ok (OutZ z, _) => z | _ => 0 end.

(** [o] succeeds in [w] *)
Definition succeeds (w : World) (o : Op) : Prop := exists out w', exec w o = Ok (out, w').

(** total amount of token [tok] in existence: the sum over all holders *)
Definition total_of (t : Tok) (tok : Addr) : Z :=
  sumz (fun e => if fst (fst e) =? tok then snd e else 0) (map_to_list (tk_bal t)).

(** ** Lemmas *)
Lemma run_app w l1 l2 : run w (l1 ++ l2) = run (run w l1) l2.
Proof. revert w. induction l1; simpl; auto. Qed.
Lemma run_snoc w l o : run w (l ++ [o]) = step (run w l) o.
Proof. by rewrite run_app. Qed.
Lemma sumh_app f w l1 l2 : sumh f w (l1 ++ l2) = sumh f w l1 + sumh f (run w l1) l2.
Proof. revert w. induction l1 as [|o l1 IH]; simpl; intros w; [done|]. rewrite IH. lia. Qed.

(** an invariant of successful transactions holds along every history *)
Lemma run_inv (P : World -> Prop) w l :
  P w -> (forall w o out w', P w -> exec w o = Ok (out, w') -> P w') -> P (run w l).
Proof.
  intros Hw Hs. revert w Hw. induction l as [|o l IH]; simpl; intros w Hw; [done|].
  apply IH. unfold step. destruct (exec w o) as [[out w']|] eqn:E; eauto.
Qed.
Lemma reach_inv (P : World -> Prop) :
  (forall w, initial w -> P w) ->
  (forall w o out w', P w -> exec w o = Ok (out, w') -> P w') ->
  forall w, reachable w -> P w.
Proof. intros Hi Hs w (w0 & l & H0 & ->). apply run_inv; auto. Qed.
Lemma reach_inv' (P : World -> Prop) :
  (forall w, initial w -> P w) ->
  (forall w o out w', reachable w -> P w -> exec w o = Ok (out, w') -> P w') ->
  forall w, reachable w -> P w.
Proof.
  intros Hi Hs w Hr.
  cut (reachable w /\ P w); [tauto|]. revert w Hr. apply reach_inv.
  - intros w Hw. split; [exists w, []; auto|auto].
  - intros w o out w' [Hr HP] E. split; [|eauto].
    destruct Hr as (w0 & l & H0 & ->). exists w0, (l ++ [o]). split; [done|].
    rewrite run_snoc. unfold step. by rewrite E.
Qed.
Lemma reachable_step w o out w' : reachable w -> exec w o = Ok (out, w') -> reachable w'.
Proof.
  intros (w0 & l & H0 & ->) E. exists w0, (l ++ [o]). split; [done|].
  rewrite run_snoc. unfold step. by rewrite E.
Qed.
Lemma reachable_run w l : reachable w -> reachable (run w l).
Proof. intros (w0 & l0 & H0 & ->). exists w0, (l0 ++ l). by rewrite run_app. Qed.
Lemma reachable_initial w : initial w -> reachable w.
Proof. intros H. by exists w, []. Qed.

(** ** Token totals *)
Lemma sumz_map_insert {K} `{Countable K} (f : K * Z -> Z) (m : gmap K Z) k v :
  sumz f (map_to_list (<[k := v]> m)) =
  sumz f (map_to_list m) + f (k, v) - match m !! k with Some b => f (k, b) | None => 0 end.
Proof.
  destruct (m !! k) as [b|] eqn:E.
  - rewrite <- (insert_delete_insert m).
    rewrite (sumz_perm f _ _ (map_to_list_insert _ _ v (lookup_delete m k))).
    rewrite <- (insert_delete m k b E) at 2.
    rewrite (sumz_perm f _ _ (map_to_list_insert _ _ b (lookup_delete m k))). simpl. lia.
  - rewrite (sumz_perm f _ _ (map_to_list_insert _ _ v E)). simpl. lia.
Qed.

Lemma total_set_balance t tok a v tok' :
  total_of (set_balance t tok a v) tok' =
  total_of t tok' + (if tok =? tok' then v - balance t tok a else 0).
Proof.
  unfold total_of, set_balance, balance. simpl. rewrite sumz_map_insert. simpl.
  destruct (tk_bal t !! (tok, a)); simpl; destruct (tok =? tok'); lia.
Qed.

Lemma balance_set_balance t tok a v tok' a' :
  balance (set_balance t tok a v) tok' a' =
  if bool_decide (tok = tok' /\ a = a') then v else balance t tok' a'.
Proof.
  unfold balance, set_balance. simpl. case_bool_decide as E.
  - destruct E as [-> ->]. by rewrite lookup_insert.
  - rewrite lookup_insert_ne; [done|]. intros [= -> ->]. auto.
Qed.

(** ** Tokens *)
Lemma tok_move_spec t tok from to amt t' :
  tok_move t tok from to amt = Ok t' ->
  0 <= amt <= balance t tok from /\ tk_allow t' = tk_allow t /\
  (forall k, total_of t' k = total_of t k) /\
  (forall k a, balance t' k a = balance t k a
     - (if bool_decide (tok = k /\ from = a) then amt else 0)
     + (if bool_decide (tok = k /\ to = a) then amt else 0)) /\
  (balance t tok to <= i128_max -> from <> to -> balance t tok to + amt <= i128_max).
Proof.
  unfold tok_move. intros H. mon H. apply i128_ok in E as [-> Hr]. subst.
  split; [lia|]. split; [done|]. split; [|split].
  - intros k. rewrite !total_set_balance. destruct (tok =? k); lia.
  - intros k a. rewrite !balance_set_balance.
    repeat case_bool_decide; destruct_and?; subst; try tauto; try lia.
  - intros _ Hne. rewrite balance_set_balance in Hr.
    rewrite bool_decide_eq_false_2 in Hr by tauto. lia.
Qed.

Lemma mint_spec t tok to amt t' :
  mint t tok to amt = Ok t' ->
  0 <= amt /\ tk_allow t' = tk_allow t /\
  (forall k, total_of t' k = total_of t k + if tok =? k then amt else 0) /\
  (forall k a, balance t' k a = balance t k a + if bool_decide (tok = k /\ to = a) then amt else 0).
Proof.
  unfold mint. intros H. mon H. apply i128_ok in E as [-> Hr]. subst.
  split; [lia|]. split; [done|]. split.
  - intros k. rewrite total_set_balance. destruct (tok =? k); lia.
  - intros k a. rewrite balance_set_balance.
    repeat case_bool_decide; destruct_and?; subst; try tauto; try lia.
Qed.
