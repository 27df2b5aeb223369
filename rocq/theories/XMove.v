(** * What a pool call does outside the pool

    Every successful call of a pool changes the rest of the world only by a
    sequence of [xmove]s: token transfers out of addresses that authorized the
    call (or out of the pool itself), spending of the pool's own allowance, and
    the three backstop calls a pool makes for itself. *)
From Verif Require Import Base Types Token Emitter Factory Backstop PoolReserve PoolUser PoolHealth
  PoolAuction PoolSubmit PoolEmis PoolAdmin World Facts.

Inductive xmove (c : Ctx) (self : Addr) : Ext -> Ext -> Prop :=
| xm_transfer x tok from to amt t :
    (c_auth c from = true \/ from = self) -> tok_move (x_tok x) tok from to amt = Ok t ->
    xmove c self x (x <| x_tok := t |>)
| xm_spend x tok from to amt t :
    transfer_from (as_contract c self) (x_tok x) tok self from to amt = Ok t ->
    xmove c self x (x <| x_tok := t |>)
| xm_draw x x' amt to :
    b_draw (as_contract c self) x self amt to = Ok x' -> xmove c self x x'
| xm_donate x x' from amt :
    b_donate (as_contract c self) x from self amt = Ok x' -> xmove c self x x'
| xm_gulp x x' n :
    b_gulp_pool (as_contract c self) x self = Ok (n, x') -> xmove c self x x'
| xm_burn x a n r : xmove c self x (add_log (EvBurn self a n r) x).

Notation xmoves c self := (rtc (xmove c self)).

Lemma need_auth_ok c a u : need_auth c a = Ok u -> c_auth c a = true.
Proof. unfold need_auth. destruct (c_auth c a); [done|discriminate]. Qed.

Lemma as_contract_auth c self a : c_auth (as_contract c self) a = true -> c_auth c a = true \/ a = self.
Proof. simpl. intros H. apply orb_prop in H as [H|H]; [by left|]. right. lia. Qed.

Lemma transfer_move c t tok from to amt t' :
  transfer c t tok from to amt = Ok t' -> c_auth c from = true /\ tok_move t tok from to amt = Ok t'.
Proof. unfold transfer. intros H. mon H. by apply need_auth_ok in E. Qed.

Lemma log_burns_xmoves c self ch m x : xmoves c self x (log_burns self ch m x).
Proof.
  unfold log_burns. induction (entries m) as [|e l IH]; simpl; [apply rtc_refl|].
  eapply rtc_r; [exact IH|]. constructor.
Qed.

Lemma fill_bad_debt_xmoves c self p x ch au filler fpos s x' :
  fill_bad_debt c self p x ch au filler fpos = Ok (s, x') -> xmoves c self x x'.
Proof.
  unfold fill_bad_debt. intros H. mon H.
  assert (xmove c self x x0) by (eapply xm_draw; eauto).
  destruct (bool_decide _); [mon H; by apply rtc_once|].
  mon H. destruct (threshold pd <? 3); mon H.
  - eapply rtc_l; [eassumption|]. apply log_burns_xmoves.
  - by apply rtc_once.
Qed.

Lemma fill_interest_xmoves c self p x ch au filler ch' x' :
  fill_interest c self p x ch au filler = Ok (ch', x') -> xmoves c self x x'.
Proof.
  unfold fill_interest. intros H. mon H.
  eapply rtc_l; [eapply xm_donate; eauto|].
  change x' with (snd (ch', x')). change x0 with (snd (ch, x0)).
  eapply (foldM_rel (fun s s' => xmoves c self (snd s) (snd s'))); [| | |exact H].
  - intros; apply rtc_refl.
  - intros; eapply rtc_transitive; eauto.
  - intros [ch0 x1] e [ch1 x2] _ Hs. unfold interest_fill_one in Hs. mon Hs.
    simpl. apply transfer_move in E4 as [Ha Hm].
    apply rtc_once. eapply xm_transfer; [|exact Hm].
    by apply as_contract_auth.
Qed.

Lemma fill_xmoves c self p x ch t user filler fpos pct s x' :
  fill c self p x ch t user filler fpos pct = Ok (s, x') -> xmoves c self x x'.
Proof.
  unfold fill. intros H. mon H.
  destruct (t =? 0); [mon E1; apply rtc_refl|].
  destruct (t =? 1); [by eapply fill_bad_debt_xmoves|].
  destruct (t =? 2); [|discriminate]. mon E1.
  by eapply fill_interest_xmoves.
Qed.

Lemma do_request_xmoves c self from s q s' :
  do_request c self from s q = Ok s' -> xmoves c self (lo_x s) (lo_x s').
Proof.
  unfold do_request. intros H. mon H.
  assert (forall t chk, do_fill c self from t chk s q = Ok s' -> xmoves c self (lo_x s) (lo_x s')) as Hf.
  { intros t chk Hd. unfold do_fill in Hd. mon Hd. simpl. by eapply fill_xmoves. }
  repeat match type of H with
  | match ?x with _ => _ end = Ok _ => destruct x
  | Err _ = Ok _ => discriminate H
  end; try (by eapply Hf);
  unfold do_supply, do_delete, do_repay, do_withdraw_coll, do_borrow, do_supply_coll, do_withdraw in H;
  mon H; try (destruct (_ <? _); mon H); simpl; try apply rtc_refl.
Qed.

Lemma transfer_all_xmoves c c' self from to x m t :
  (c_auth c' from = true -> c_auth c from = true \/ from = self) ->
  transfer_all c' from to (x_tok x) m = Ok t -> xmoves c self x (x <| x_tok := t |>).
Proof.
  intros Hc. unfold transfer_all. generalize (entries m). intros l. revert x.
  induction l as [|e l IH]; simpl; intros x H; mon1 H.
  - subst. replace (x <| x_tok := x_tok x |>) with x by (by destruct x). apply rtc_refl.
  - apply transfer_move in E as [Ha Hm].
    eapply rtc_l; [eapply xm_transfer; [by apply Hc|exact Hm]|].
    specialize (IH (x <| x_tok := s' |>) H). by destruct x.
Qed.

Lemma build_actions_xmoves c self p x ch from qs s :
  build_actions c self p x ch from qs = Ok s -> xmoves c self x (lo_x s).
Proof.
  unfold build_actions. intros H. mon H.
  eapply (foldM_rel (fun s s' => xmoves c self (lo_x s) (lo_x s'))) in E; [exact E|..].
  - intros; apply rtc_refl.
  - intros; eapply rtc_transitive; eauto.
  - intros; by eapply do_request_xmoves.
Qed.

Lemma submit_xmoves c self px from spender to qs pos px' :
  p_submit c self px from spender to qs = Ok (pos, px') -> xmoves c self (px_x px) (px_x px').
Proof.
  unfold p_submit. intros H. mon H. simpl.
  eapply rtc_transitive; [by eapply build_actions_xmoves|].
  eapply rtc_transitive; [eapply transfer_all_xmoves; [|exact E3]; by left|].
  match type of E5 with _ = Ok ?t2 => match type of E3 with _ = Ok ?t1 =>
    replace (lo_x s <| x_tok := t2 |>) with ((lo_x s <| x_tok := t1 |>) <| x_tok := t2 |>) by (by destruct (lo_x s)) end end.
  eapply transfer_all_xmoves; [|exact E5]. apply as_contract_auth.
Qed.

Theorem p_exec_xmoves c self px o out px' :
  p_exec c self px o = Ok (out, px') -> xmoves c self (px_x px) (px_x px').
Proof.
  destruct o; simpl; intros H;
    unfold on_pool, ret_z in H; mon H; simpl; try apply rtc_refl.
  - by eapply submit_xmoves.
  - unfold p_gulp in E. mon E. unfold to_backstop in E0. destruct (_ =? _); [|discriminate].
    simpl. apply rtc_once. by eapply xm_gulp.
  - unfold p_claim in E. mon E. destruct (0 <? _); mon E; simpl; [|apply rtc_refl].
    apply rtc_once. by eapply xm_spend.
Qed.
