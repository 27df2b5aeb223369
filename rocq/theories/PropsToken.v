(** * Wallets and token supplies: C69 *)
From Verif Require Import Base Types Token Emitter Factory Backstop PoolReserve PoolUser PoolHealth
  PoolAuction PoolSubmit PoolEmis PoolAdmin World Facts XMove Spec FrameFacts PoolFrame PoolCfg PropsEmitter BackMoves PropsPool1 PropsPool2 PropsPool3.

(** ** Specification *)
(** the unexpired allowance of [spender] on [tok] of [u] *)
Definition approved (w : World) (tok u spender : Addr) : Z :=
  match tk_allow (x_tok (w_ext w)) !! (tok, u, spender) with Some (n, live) => if live <? w_seq w then 0 else n | None => 0 end.
(** who acts in a transaction: its signers and the pool that is called *)
Definition acts (o : Op) (s : Addr) : Prop := s ∈ signers o \/ exists sg po, o = OPool sg s po.
Definition in_existence (w : World) (tok : Addr) : Z := total_of (x_tok (w_ext w)) tok.

(** what may be created or destroyed: token administrators and holders mint and burn, the emitter mints BLND, and a backstop
    claim, if there is anything to claim, buys LP tokens *)
Definition supply_rule (w : World) (o : Op) (out : Out) (w' : World) : Prop :=
  match o with
  | OExt _ (TMint k _ n) => forall tok, in_existence w' tok = in_existence w tok + if tok =? k then n else 0
  | OExt _ (TBurn k _ n) => forall tok, in_existence w' tok = in_existence w tok - if tok =? k then n else 0
  | OExt _ EDistribute | OExt _ ESwap | OExt _ (EDrop _) | OExt _ BDrop =>
      exists n, 0 <= n /\ forall tok, in_existence w' tok = in_existence w tok + if tok =? em_blnd (emitter w) then n else 0
  | OExt _ (BClaim _ _ _ lp) => exists claimed, out = OutZ claimed /\
      forall tok, in_existence w' tok = in_existence w tok + if (tok =? bs_token (x_bs (w_ext w))) && (0 <? claimed) then lp else 0
  | _ => forall tok, in_existence w' tok = in_existence w tok
  end.

(** ** Lemmas *)
(** [u] does not lose [tok], and its allowance for [s] stays 0 (or negative, which cannot happen) *)
Definition safe (seq : Z) (tok u s : Addr) (t t' : Tok) : Prop :=
  let al t := match tk_allow t !! (tok, u, s) with Some (n, live) => if live <? seq then 0 else n | None => 0 end in
  al t <= 0 -> balance t tok u <= balance t' tok u /\ al t' <= 0.
Lemma safe_refl seq tok u s t : safe seq tok u s t t. Proof. unfold safe. cbv zeta. intros H. split; [lia|done]. Qed.
Lemma safe_trans seq tok u s a b c : safe seq tok u s a b -> safe seq tok u s b c -> safe seq tok u s a c.
Proof. unfold safe. cbv zeta. intros H1 H2 H. destruct (H1 H) as [H3 H4]. destruct (H2 H4) as [H5 H6]. split; [lia|done]. Qed.
Lemma safe_move seq tok u s t k from to n t' : from <> u -> tok_move t k from to n = Ok t' -> safe seq tok u s t t'.
Proof.
  intros Hne H. unfold safe. cbv zeta. intros Ha. pose proof (tok_move_bal _ _ _ _ _ _ tok u (or_introl Hne) H). apply tok_move_spec in H as (_ & -> & _). split; [lia|done].
Qed.
Lemma safe_spend c tok u s t k sp from to n t' : sp = s \/ from <> u -> transfer_from c t k sp from to n = Ok t' -> safe (c_seq c) tok u s t t'.
Proof.
  intros Hs H. unfold safe. cbv zeta. intros Ha. unfold transfer_from in H. mon H. apply need_auth_ok in E.
  match type of H with tok_move ?t1 _ _ _ _ = _ => set (t1' := t1) in *; assert (tk_bal t1' = tk_bal t) as Hb by (unfold t1'; repeat case_match; done) end.
  assert ((from = u /\ k = tok) -> n = 0) as Hn.
  { intros [-> ->]. destruct Hs as [->|]; [|done]. unfold allowance in *. destruct (tk_allow t !! (tok, u, s)) as [[v live]|]; [|lia]. lia. }
  assert (tk_allow t1' !! (tok, u, s) = tk_allow t !! (tok, u, s)) as Hal.
  { unfold t1'. destruct (tk_allow t !! (k, from, sp)) as [[v live]|] eqn:Ek; [|done]. destruct (Z.eqb_spec n 0) as [|Hn0]; [done|]. simpl. rewrite lookup_insert_ne; [done|].
    intros [= -> -> ->]. apply Hn0, Hn. done. }
  assert (from <> u \/ n = 0 \/ k <> tok) as Hd.
  { destruct (decide (from = u)) as [->|]; [|by left]. destruct (decide (k = tok)) as [->|]; [|by right; right]. right; left. by apply Hn. }
  pose proof (tok_move_bal _ _ _ _ _ _ tok u Hd H) as Hbal. apply tok_move_spec in H as (_ & -> & _). rewrite Hal. split; [|done].
  unfold balance in *. rewrite Hb in Hbal. lia.
Qed.
Lemma safe_approve c tok u s t k from sp n live t' : from <> u -> approve c t k from sp n live = Ok t' -> safe (c_seq c) tok u s t t'.
Proof.
  intros Hne H. unfold approve in H. mon H. subst. unfold safe. cbv zeta. simpl. rewrite lookup_insert_ne by (intros [= ? ? ?]; done). intros Ha. split; [|done]. unfold balance. simpl. lia.
Qed.
Lemma safe_mint seq tok u s t k to n t' : mint t k to n = Ok t' -> safe seq tok u s t t'.
Proof. intros H. apply mint_spec in H as (Hn & Ha & _ & Hb). unfold safe. cbv zeta. rewrite Ha, Hb. intros H. split; [case_bool_decide; lia|done]. Qed.

Ltac xfer := match goal with H : transfer _ _ _ _ _ _ = Ok _ |- _ => let Hf := fresh "Hf" in let Hm := fresh "Hm" in apply transfer_move in H as [Hf Hm] end.
Lemma safe_xmove c self tok u x x' : (c_auth c u = false) -> 3 < u -> self <> u ->
  xmove c self x x' -> safe (c_seq c) tok u self (x_tok x) (x_tok x').
Proof.
  intros Hau Hu Hself H. assert (bs_addr <> u) as Hbs by (unfold bs_addr; lia). destruct H.
  - simpl. eapply safe_move; [|eassumption]. intros ->. destruct H as [H|H]; [congruence|done].
  - simpl. change (c_seq c) with (c_seq (as_contract c self)). eapply safe_spend; [|eassumption]. by left.
  - unfold b_draw in H. mon H. subst. simpl. xfer. by eapply safe_move.
  - unfold b_donate in H. mon H. subst. simpl in *. xfer. eapply safe_move; [|eassumption].
    intros ->. simpl in Hf. rewrite Hau in Hf. simpl in Hf. apply Z.eqb_eq in Hf. congruence.
  - unfold b_gulp_pool in H. mon H. subst. simpl. match goal with H : approve _ _ _ _ _ _ _ = Ok _ |- _ => eapply (safe_approve (as_contract (as_contract c self) bs_addr)) in H; [exact H|done] end.
  - apply safe_refl.
Qed.
Lemma safe_xmoves c self tok u x x' : (c_auth c u = false) -> 3 < u -> self <> u ->
  xmoves c self x x' -> safe (c_seq c) tok u self (x_tok x) (x_tok x').
Proof. intros Ha Hu Hs H. induction H; [apply safe_refl|]. eapply safe_trans; [by eapply safe_xmove|done]. Qed.

Lemma same_tok_bfields x x' : bfields x x' -> x_tok x' = x_tok x.
Proof. unfold bfields. intuition. Qed.

Lemma b_emissions_tok c x p pb u ub cl n x' : b_emissions c x p pb u ub cl = Ok (n, x') -> x_tok x' = x_tok x.
Proof. intros H. by eapply same_tok_bfields, emis_frame_fields, emis_frame_b. Qed.
Lemma claim_loop_fields c u ps s s' : foldM (claim_one c u) s ps = Ok s' -> bfields s.2 s'.2.
Proof.
  revert s. induction ps as [|p ps IH]; intros s H; cbn [foldM] in H; [injection H as ->; apply bfields_refl|]. apply bind_ok in H as ([[n1 m1] x1] & H1 & H). apply IH in H.
  eapply bfields_trans; [|exact H]. destruct s as [[n m] x]. unfold claim_one in H1. apply bind_ok in H1 as ([a x2] & E & H1). mon H1. subst. simpl.
  eapply bfields_trans; [by eapply emis_frame_fields, emis_frame_b|]. repeat split.
Qed.
Lemma claim_deps_tok cl lp m t ps x x' : foldM (claim_dep cl lp m t) x ps = Ok x' -> x_tok x' = x_tok x.
Proof.
  revert x. induction ps as [|p ps IH]; intros x H; cbn [foldM] in H; [by injection H as ->|]. apply bind_ok in H as (x1 & H1 & H). apply IH in H as ->.
  unfold claim_dep in H1. mon H1. subst. done.
Qed.

Definition blnd_only (x x' : Ext) : Prop :=
  exists n, 0 <= n /\ (forall k, total_of (x_tok x') k = total_of (x_tok x) k + if em_blnd (x_em x) =? k then n else 0) /\
    (forall k a, balance (x_tok x) k a <= balance (x_tok x') k a) /\ tk_allow (x_tok x') = tk_allow (x_tok x).
Lemma mint_blnd x to n x' : em_mint x to n = Ok x' -> blnd_only x x' /\ x_em x' = x_em x.
Proof.
  unfold em_mint. intros H. mon H. subst. match goal with H : mint _ _ _ _ = Ok _ |- _ => apply mint_spec in H as (Hn & Ha & Ht & Hb) end. split; [|done]. exists n. simpl. split; [done|]. split; [done|].
  split; [|done]. intros k a. rewrite Hb. case_bool_decide; lia.
Qed.
Lemma blnd_refl x : blnd_only x x.
Proof. exists 0. split; [done|]. split; [intros k; destruct (_ =? _); lia|]. split; [intros; lia|done]. Qed.
Lemma blnd_trans x y z : blnd_only x y -> x_em y = x_em x -> blnd_only y z -> blnd_only x z.
Proof.
  intros (n & Hn & T & B & A) E (m & Hm & T' & B' & A'). rewrite E in T'. exists (n + m). split; [lia|]. split; [intros k; rewrite T', T; destruct (_ =? _); lia|].
  split; [intros k a; specialize (B k a); specialize (B' k a); lia|congruence].
Qed.
Lemma mints_blnd l : forall x x', foldM (fun x p => em_mint x p.1 p.2) x l = Ok x' -> blnd_only x x' /\ x_em x' = x_em x.
Proof.
  induction l as [|e l IH]; intros x x' H; cbn [foldM] in H; [injection H as <-; split; [apply blnd_refl|done]|].
  apply bind_ok in H as (y & H1 & H2). apply mint_blnd in H1 as [B1 E1]. apply IH in H2 as [B2 E2]. split; [by eapply blnd_trans|congruence].
Qed.
Lemma distribute_blnd c x b n x' : em_execute_distribute c x b = Ok (n, x') -> blnd_only x x'.
Proof.
  unfold em_execute_distribute. intros H. mon H. subst. match goal with H : em_mint _ _ _ = Ok _ |- _ => apply mint_blnd in H as [B _] end. exact B.
Qed.
Lemma drop_blnd c x l x' : em_drop c x l = Ok x' -> blnd_only x x'.
Proof.
  unfold em_drop. intros H. mon H. subst. match goal with H : foldM (fun x p => em_mint x p.1 p.2) _ _ = Ok _ |- _ => apply mints_blnd in H as [B _] end. exact B.
Qed.


Lemma xmove_total c self x x' k : xmove c self x x' -> total_of (x_tok x') k = total_of (x_tok x) k.
Proof.
  intros H. destruct H; simpl.
  - by apply tok_move_spec in H0 as (_ & _ & -> & _).
  - apply transfer_from_spec in H as (_ & _ & _ & _ & t1 & Hb & H). apply tok_move_spec in H as (_ & _ & -> & _). unfold total_of. by rewrite Hb.
  - unfold b_draw in H. mon H. subst. simpl. xfer. by apply tok_move_spec in Hm as (_ & _ & -> & _).
  - unfold b_donate in H. mon H. subst. simpl. xfer. by apply tok_move_spec in Hm as (_ & _ & -> & _).
  - unfold b_gulp_pool in H. mon H. subst. simpl. match goal with H : approve _ _ _ _ _ _ _ = Ok _ |- _ => unfold approve in H; mon H; subst; done end.
  - done.
Qed.

(** ** C69 *)
Theorem C69_supply : forall w o out w', exec w o = Ok (out, w') -> supply_rule w o out w'.
Proof.
  intros w o out w' H. destruct o; simpl in H.
  - apply assert_ok in H as [_ H]. apply bind_ok in H as ([out0 x] & E & H). injection H as <- <-.
    assert (forall y, x_tok x = x_tok y -> forall tok, in_existence (w <| w_ext := x |>) tok = total_of (x_tok y) tok) as Hsame by (intros y Hy tok; unfold in_existence; simpl; by rewrite Hy).
    destruct o; simpl in E; unfold supply_rule.
    all: unfold ret_unit, ret_z in E; mon E; subst.
    all: try (match goal with H : _ = Ok ?x |- forall tok, in_existence (_ <| w_ext := ?x |>) tok = in_existence _ tok => idtac end).
    + unfold em_initialize in E0. mon E0. by subst.
    + match goal with H : em_distribute _ _ = Ok _ |- _ => unfold em_distribute in H; mon H; apply distribute_blnd in H as (n & Hn & T & _) end. exists n. split; [done|]. intros tok. rewrite (Z.eqb_sym tok). apply T.
    + unfold em_queue_swap in E0. mon E0. by subst.
    + unfold em_cancel_swap in E0. mon E0. by subst.
    + match goal with H : em_swap_backstop _ _ = Ok _ |- _ => unfold em_swap_backstop in H; mon H end. subst.
      match goal with H : em_execute_distribute _ _ _ = Ok _ |- _ => apply distribute_blnd in H as (n & Hn & T & _) end. exists n. split; [done|]. intros tok. rewrite (Z.eqb_sym tok). apply T.
    + match goal with H : em_drop _ _ _ = Ok _ |- _ => apply drop_blnd in H as (n & Hn & T & _) end. exists n. split; [done|]. intros tok. rewrite (Z.eqb_sym tok). apply T.
    + unfold fa_initialize in E0. mon E0. by subst.
    + unfold b_initialize in E0. mon E0. by subst.
    + match goal with H : b_deposit _ _ _ _ _ = Ok _ |- _ => unfold b_deposit in H; mon H end. subst. xfer. apply tok_move_spec in Hm as (_ & _ & T & _).
      match goal with H : b_emissions _ _ _ _ _ _ _ = Ok _ |- _ => apply b_emissions_tok in H as Ht end. intros tok. unfold in_existence. simpl. rewrite T, Ht. done.
    + match goal with H : b_queue _ _ _ _ _ = Ok _ |- _ => unfold b_queue in H; mon H end. subst.
      match goal with H : b_emissions _ _ _ _ _ _ _ = Ok _ |- _ => apply b_emissions_tok in H as Ht end. intros tok. unfold in_existence. simpl. by rewrite Ht.
    + match goal with H : b_dequeue _ _ _ _ _ = Ok _ |- _ => unfold b_dequeue in H; mon H end. subst.
      match goal with H : b_emissions _ _ _ _ _ _ _ = Ok _ |- _ => apply b_emissions_tok in H as Ht end. intros tok. unfold in_existence. simpl. by rewrite Ht.
    + match goal with H : b_withdraw _ _ _ _ _ = Ok _ |- _ => unfold b_withdraw in H; mon H end. subst. xfer. apply tok_move_spec in Hm as (_ & _ & T & _). intros tok. unfold in_existence. simpl. by rewrite T.
    + intros tok. unfold in_existence. simpl. unfold b_draw in E0. mon E0. subst. simpl. xfer. by apply tok_move_spec in Hm as (_ & _ & -> & _).
    + intros tok. unfold in_existence. simpl. unfold b_donate in E0. mon E0. subst. simpl. xfer. by apply tok_move_spec in Hm as (_ & _ & -> & _).
    + match goal with H : b_update_tkn_val _ _ = Ok _ |- _ => unfold b_update_tkn_val in H; mon H end. by subst.
    + match goal with H : b_drop _ _ = Ok _ |- _ => unfold b_drop in H; mon H; apply drop_blnd in H as (n & Hn & T & _) end. exists n. split; [done|]. intros tok. rewrite (Z.eqb_sym tok). apply T.
    + match goal with H : b_add_reward _ _ _ _ = Ok _ |- _ => unfold b_add_reward in H; mon H end. destruct (_ <? _); mon E0; by subst.
    + match goal with H : b_gulp _ _ = Ok _ |- _ => apply b_gulp_fields, same_tok_bfields in H end. intros tok. unfold in_existence. simpl. congruence.
    + match goal with H : b_gulp_pool _ _ _ = Ok _ |- _ => unfold b_gulp_pool in H; mon H end. subst. match goal with H : approve _ _ _ _ _ _ _ = Ok _ |- _ => unfold approve in H; mon H; by subst end.
    + match goal with H : b_claim _ _ _ _ _ _ = Ok _ |- _ => unfold b_claim in H; rename H into Hc end.
      apply bind_ok in Hc as (? & _ & Hc). apply assert_ok in Hc as [_ Hc]. apply bind_ok in Hc as ([[cl m] x1] & E1 & Hc). apply claim_loop_fields in E1 as (_ & _ & Etk & _ & Ht). cbn [snd] in Etk, Ht.
      destruct (0 <? cl) eqn:E0.
      * apply assert_ok in Hc as [_ Hc]. apply bind_ok in Hc as (t1 & M1 & Hc). apply bind_ok in Hc as (t2 & M2 & Hc). apply bind_ok in Hc as (x2 & D & Hc). injection Hc as <- <-.
        apply claim_deps_tok in D. simpl in D. exists cl. split; [done|]. intros tok. unfold in_existence. simpl. rewrite D.
        apply tok_move_spec in M1 as (_ & _ & T1 & _). apply mint_spec in M2 as (_ & _ & T2 & _). rewrite T2, T1, Ht, Etk, E0, andb_true_r, (Z.eqb_sym tok). done.
      * injection Hc as <- <-. exists cl. split; [done|]. intros tok. unfold in_existence. simpl. rewrite Ht, E0, andb_false_r. lia.
    + xfer. apply tok_move_spec in Hm as (_ & _ & T & _). intros tok0. unfold in_existence. simpl. by rewrite T.
    + match goal with H : approve _ _ _ _ _ _ _ = Ok _ |- _ => unfold approve in H; mon H; by subst end.
    + match goal with H : transfer_from _ _ _ _ _ _ _ = Ok _ |- _ => apply transfer_from_spec in H as (_ & _ & _ & _ & t1 & Hb & H); apply tok_move_spec in H as (_ & _ & T & _) end.
      intros tok0. unfold in_existence. simpl. rewrite T. unfold total_of. by rewrite Hb.
    + match goal with H : burn _ _ _ _ _ = Ok _ |- _ => unfold burn in H; mon H end. subst. intros tok0. unfold in_existence. simpl. rewrite total_set_balance, (Z.eqb_sym tok0). destruct (_ =? _); lia.
    + match goal with H : mint _ _ _ _ = Ok _ |- _ => apply mint_spec in H as (_ & _ & T & _) end. intros tok0. unfold in_existence. simpl. rewrite T, (Z.eqb_sym tok0). done.
  - apply assert_ok in H as [_ H]. apply bind_ok in H as (p & _ & H). apply bind_ok in H as ([out0 px] & E & H). injection H as <- <-. apply p_exec_xmoves in E. simpl in E.
    unfold supply_rule. intros tok. unfold in_existence. simpl. induction E as [|x y z H1 _ IH]; [done|]. rewrite IH. by eapply xmove_total.
  - apply assert_ok in H as [_ H]. apply bind_ok in H as (u & _ & H). destruct (w_pools w !! _); [done|]. mon H. by subst.
  - apply assert_ok in H as [_ H]. destruct (w_pools w !! _); [done|]. mon H. by subst.
  - mon H. by subst.
  - mon H. by subst.
  - mon H. by subst.
  - destruct (w_pools w !! _); mon H; by subst.
  - destruct (w_pools w !! _); mon H; by subst.
  - mon H. by subst.
Qed.

Theorem C69_wallets : forall w o out w' tok u,
  reachable w -> exec w o = Ok (out, w') -> 3 < u ->
  u ∉ signers o -> (forall s, acts o s -> approved w tok u s <= 0) ->
  held w tok u <= held w' tok u.
Proof.
  intros w o out w' tok u Hr H Hu Hsg Hap. assert (forall s, s ∈ signers o -> approved w tok u s <= 0) as Hap1 by (intros s Hs; apply Hap; by left).
  assert (bs_addr <> u) as Hbs by (unfold bs_addr; lia).
  unfold held. destruct o; simpl in H.
  - apply assert_ok in H as [_ H]. apply bind_ok in H as ([out0 x] & E & H). injection H as <- <-. simpl in Hsg, Hap1. simpl.
    assert (c_auth (ctx w signers) u = false) as Hau. { simpl. apply not_true_iff_false. intros Hm. apply mem_addr_elem in Hm. done. }
    assert (forall t k from to n t', c_auth (as_contract (ctx w signers) bs_addr) from = true -> tok_move t k from to n = Ok t' -> balance t tok u <= balance t' tok u) as Hmove.
    { intros t k from to n t' Hf Hm. assert (from <> u) as Hne. { intros ->. apply as_contract_auth in Hf as [Hf|Hf]; congruence. } pose proof (tok_move_bal _ _ _ _ _ _ tok u (or_introl Hne) Hm). lia. }
    assert (forall t k from to n t', c_auth (ctx w signers) from = true -> tok_move t k from to n = Ok t' -> balance t tok u <= balance t' tok u) as Hmove'.
    { intros t k from to n t' Hf. apply Hmove. unfold as_contract. cbn [c_auth]. by rewrite Hf. }
    destruct o; simpl in E.
    all: unfold ret_unit, ret_z in E; mon E; subst.
    + unfold em_initialize in E0. mon E0. subst. simpl. lia.
    + match goal with H : em_distribute _ _ = Ok _ |- _ => unfold em_distribute in H; mon H; apply distribute_blnd in H as (n & _ & _ & B & _) end. apply B.
    + unfold em_queue_swap in E0. mon E0. subst. simpl. lia.
    + unfold em_cancel_swap in E0. mon E0. subst. simpl. lia.
    + match goal with H : em_swap_backstop _ _ = Ok _ |- _ => unfold em_swap_backstop in H; mon H end. subst.
      match goal with H : em_execute_distribute _ _ _ = Ok _ |- _ => apply distribute_blnd in H as (n & _ & _ & B & _) end. apply B.
    + match goal with H : em_drop _ _ _ = Ok _ |- _ => apply drop_blnd in H as (n & _ & _ & B & _) end. apply B.
    + unfold fa_initialize in E0. mon E0. subst. simpl. lia.
    + unfold b_initialize in E0. mon E0. subst. simpl. lia.
    + match goal with H : b_deposit _ _ _ _ _ = Ok _ |- _ => unfold b_deposit in H; mon H end. subst. xfer.
      match goal with H : b_emissions _ _ _ _ _ _ _ = Ok _ |- _ => apply b_emissions_tok in H as Ht end. simpl. rewrite <- Ht. by eapply Hmove'.
    + match goal with H : b_queue _ _ _ _ _ = Ok _ |- _ => unfold b_queue in H; mon H end. subst.
      match goal with H : b_emissions _ _ _ _ _ _ _ = Ok _ |- _ => apply b_emissions_tok in H as Ht end. simpl. rewrite Ht. lia.
    + match goal with H : b_dequeue _ _ _ _ _ = Ok _ |- _ => unfold b_dequeue in H; mon H end. subst.
      match goal with H : b_emissions _ _ _ _ _ _ _ = Ok _ |- _ => apply b_emissions_tok in H as Ht end. simpl. rewrite Ht. lia.
    + match goal with H : b_withdraw _ _ _ _ _ = Ok _ |- _ => unfold b_withdraw in H; mon H end. subst. xfer. simpl. by eapply Hmove in Hm.
    + unfold b_draw in E0. mon E0. subst. simpl. xfer. by eapply Hmove in Hm.
    + unfold b_donate in E0. mon E0. subst. simpl. xfer. by eapply Hmove' in Hm.
    + match goal with H : b_update_tkn_val _ _ = Ok _ |- _ => unfold b_update_tkn_val in H; mon H end. subst. simpl. lia.
    + match goal with H : b_drop _ _ = Ok _ |- _ => unfold b_drop in H; mon H; apply drop_blnd in H as (n & _ & _ & B & _) end. apply B.
    + match goal with H : b_add_reward _ _ _ _ = Ok _ |- _ => unfold b_add_reward in H; mon H end. destruct (_ <? _); mon E0; subst; simpl; lia.
    + match goal with H : b_gulp _ _ = Ok _ |- _ => apply b_gulp_fields, same_tok_bfields in H as -> end. lia.
    + match goal with H : b_gulp_pool _ _ _ = Ok _ |- _ => unfold b_gulp_pool in H; mon H end. subst. match goal with H : approve _ _ _ _ _ _ _ = Ok _ |- _ => unfold approve in H; mon H; subst end. unfold balance. simpl. lia.
    + match goal with H : b_claim _ _ _ _ _ _ = Ok _ |- _ => unfold b_claim in H; rename H into Hc end.
      apply bind_ok in Hc as (? & _ & Hc). apply assert_ok in Hc as [_ Hc]. apply bind_ok in Hc as ([[cl m] x1] & E1 & Hc). apply claim_loop_fields in E1 as (_ & _ & Etk & _ & Ht). cbn [snd] in Etk, Ht.
      destruct (0 <? cl) eqn:E0; [|injection Hc as <- <-; rewrite Ht; lia].
      apply assert_ok in Hc as [_ Hc]. apply bind_ok in Hc as (t1 & M1 & Hc). apply bind_ok in Hc as (t2 & M2 & Hc). apply bind_ok in Hc as (x2 & D & Hc). injection Hc as <- <-.
      apply claim_deps_tok in D. simpl in D. rewrite D. pose proof (tok_move_bal _ _ _ _ _ _ tok u (or_introl Hbs) M1) as B1. rewrite Ht in B1.
      apply mint_spec in M2 as (Hlp & _ & _ & B2). rewrite B2. case_bool_decide; lia.
    + xfer. by eapply Hmove' in Hm.
    + match goal with H : approve _ _ _ _ _ _ _ = Ok _ |- _ => unfold approve in H; mon H; subst end. unfold balance. simpl. lia.
    + match goal with H : transfer_from _ _ _ _ _ _ _ = Ok _ |- _ => pose proof H as Hs; apply transfer_from_spec in H as (_ & Hf & _) end. simpl in Hf. apply mem_addr_elem in Hf.
      apply (safe_spend _ tok u spender) in Hs; [|by left]. simpl in Hs. unfold safe in Hs. cbv zeta in Hs. by apply Hs, Hap1.
    + match goal with H : burn _ _ _ _ _ = Ok _ |- _ => unfold burn in H; mon H end. subst. match goal with H : need_auth _ _ = Ok _ |- _ => apply need_auth_ok in H end.
      simpl. rewrite balance_set_balance. case_bool_decide as Hx; [|lia]. destruct Hx as [_ ->]. congruence.
    + match goal with H : mint _ _ _ _ = Ok _ |- _ => apply mint_spec in H as (Hn & _ & _ & B) end. rewrite B. case_bool_decide; lia.
  - apply assert_ok in H as [_ H]. apply bind_ok in H as (p & Hp & H). apply bind_ok in H as ([out0 px] & E & H). injection H as <- <-. apply p_exec_xmoves in E. simpl in E. simpl.
    assert (pool <> u) as Hne. { destruct (w_pools w !! pool) as [q|] eqn:Eq; [|done]. pose proof (pools_neg w Hr _ _ Eq). lia. }
    assert (c_auth (ctx w signers) u = false) as Hau. { simpl. apply not_true_iff_false. intros Hm. apply mem_addr_elem in Hm. done. }
    apply (safe_xmoves _ _ tok u) in E; [|done..]. unfold safe in E. cbv zeta in E. apply E. apply Hap. right. eauto.
  - apply assert_ok in H as [_ H]. apply bind_ok in H as (v & _ & H). destruct (w_pools w !! _); [done|]. mon H. subst. simpl. lia.
  - apply assert_ok in H as [_ H]. destruct (w_pools w !! _); [done|]. mon H. subst. simpl. lia.
  - mon H. subst. simpl. lia.
  - mon H. subst. simpl. lia.
  - mon H. subst. simpl. lia.
  - destruct (w_pools w !! _); mon H; subst; simpl; lia.
  - destruct (w_pools w !! _); mon H; subst; simpl; lia.
  - mon H. subst. simpl. lia.
Qed.

(** nobody gets an allowance from [u] without its signature *)
Definition alw (seq seq' : Z) (tok u : Addr) (t t' : Tok) : Prop :=
  let al seq t s := match tk_allow t !! (tok, u, s) with Some (n, live) => if live <? seq then 0 else n | None => 0 end in
  forall s, al seq' t' s <= Z.max 0 (al seq t s).
Lemma alw_eq seq seq' tok u t t' : seq <= seq' -> tk_allow t' = tk_allow t -> alw seq seq' tok u t t'.
Proof.
  intros Hs H s. cbv beta zeta. rewrite H. destruct (tk_allow t !! (tok, u, s)) as [[n live]|]; [|lia]. destruct (live <? seq') eqn:E1; [lia|]. destruct (live <? seq) eqn:E2; lia.
Qed.
Lemma alw_trans seq tok u a b c : alw seq seq tok u a b -> alw seq seq tok u b c -> alw seq seq tok u a c.
Proof. intros H1 H2 s. specialize (H1 s). specialize (H2 s). cbv beta zeta in *. lia. Qed.
Lemma alw_move seq tok u t k from to n t' : tok_move t k from to n = Ok t' -> alw seq seq tok u t t'.
Proof. intros H. apply tok_move_spec in H as (_ & H & _). apply alw_eq; [lia|done]. Qed.
Lemma alw_mint seq tok u t k to n t' : mint t k to n = Ok t' -> alw seq seq tok u t t'.
Proof. intros H. apply mint_spec in H as (_ & H & _). apply alw_eq; [lia|done]. Qed.
Lemma alw_approve c seq tok u t k from sp n live t' : from <> u -> approve c t k from sp n live = Ok t' -> alw seq seq tok u t t'.
Proof. intros Hne H s. unfold approve in H. mon H. subst. simpl. rewrite lookup_insert_ne by (intros [= ? ? ?]; done). lia. Qed.
Lemma alw_spend c tok u t k sp from to n t' : transfer_from c t k sp from to n = Ok t' -> alw (c_seq c) (c_seq c) tok u t t'.
Proof.
  intros H s. unfold transfer_from in H. mon H. apply tok_move_spec in H as (_ & Hal & _). rewrite Hal. clear Hal. unfold allowance in *.
  destruct (tk_allow t !! (k, from, sp)) as [[v live]|] eqn:Ek; [|lia]. destruct (Z.eqb_spec n 0) as [|Hn0]; [lia|]. simpl.
  destruct (decide ((k, from, sp) = (tok, u, s))) as [Heq|Hne]; [|rewrite lookup_insert_ne by done; lia].
  rewrite Heq, lookup_insert. injection Heq as -> -> ->. rewrite Ek. destruct (live <? c_seq c); lia.
Qed.
Lemma alw_xmoves c self tok u x x' : 3 < u -> xmoves c self x x' -> alw (c_seq c) (c_seq c) tok u (x_tok x) (x_tok x').
Proof.
  intros Hu H. induction H as [|x y z H _ IH]; [apply alw_eq; [lia|done]|]. eapply alw_trans; [|exact IH]. clear IH. destruct H; simpl.
  - by eapply alw_move.
  - change (c_seq c) with (c_seq (as_contract c self)). by eapply alw_spend.
  - unfold b_draw in H. mon H. subst. simpl. xfer. by eapply alw_move.
  - unfold b_donate in H. mon H. subst. simpl. xfer. by eapply alw_move.
  - unfold b_gulp_pool in H. mon H. subst. simpl. match goal with H : approve _ _ _ _ _ _ _ = Ok _ |- _ => eapply alw_approve in H; [exact H|unfold bs_addr; lia] end.
  - apply alw_eq; [lia|done].
Qed.

Lemma alw_exec w o out w' tok u : exec w o = Ok (out, w') -> 3 < u -> u ∉ signers o ->
  alw (w_seq w) (w_seq w') tok u (x_tok (w_ext w)) (x_tok (w_ext w')).
Proof.
  intros H Hu Hsg. assert (bs_addr <> u) as Hbs by (unfold bs_addr; lia). destruct o; simpl in H.
  - apply assert_ok in H as [_ H]. apply bind_ok in H as ([out0 x] & E & H). injection H as <- <-. simpl in Hsg. simpl.
    assert (c_auth (ctx w signers) u = false) as Hau. { simpl. apply not_true_iff_false. intros Hm. apply mem_addr_elem in Hm. done. }
    destruct o; simpl in E.
    all: unfold ret_unit, ret_z in E; mon E; subst.
    + unfold em_initialize in E0. mon E0. subst. apply alw_eq; [lia|done].
    + match goal with H : em_distribute _ _ = Ok _ |- _ => unfold em_distribute in H; mon H; apply distribute_blnd in H as (n & _ & _ & _ & B) end. apply alw_eq; [lia|done].
    + unfold em_queue_swap in E0. mon E0. subst. apply alw_eq; [lia|done].
    + unfold em_cancel_swap in E0. mon E0. subst. apply alw_eq; [lia|done].
    + match goal with H : em_swap_backstop _ _ = Ok _ |- _ => unfold em_swap_backstop in H; mon H end. subst.
      match goal with H : em_execute_distribute _ _ _ = Ok _ |- _ => apply distribute_blnd in H as (n & _ & _ & _ & B) end. apply alw_eq; [lia|done].
    + match goal with H : em_drop _ _ _ = Ok _ |- _ => apply drop_blnd in H as (n & _ & _ & _ & B) end. apply alw_eq; [lia|done].
    + unfold fa_initialize in E0. mon E0. subst. apply alw_eq; [lia|done].
    + unfold b_initialize in E0. mon E0. subst. apply alw_eq; [lia|done].
    + match goal with H : b_deposit _ _ _ _ _ = Ok _ |- _ => unfold b_deposit in H; mon H end. subst. xfer.
      match goal with H : b_emissions _ _ _ _ _ _ _ = Ok _ |- _ => apply b_emissions_tok in H as Ht end. simpl. rewrite <- Ht. by eapply alw_move.
    + match goal with H : b_queue _ _ _ _ _ = Ok _ |- _ => unfold b_queue in H; mon H end. subst.
      match goal with H : b_emissions _ _ _ _ _ _ _ = Ok _ |- _ => apply b_emissions_tok in H as Ht end. simpl. rewrite Ht. apply alw_eq; [lia|done].
    + match goal with H : b_dequeue _ _ _ _ _ = Ok _ |- _ => unfold b_dequeue in H; mon H end. subst.
      match goal with H : b_emissions _ _ _ _ _ _ _ = Ok _ |- _ => apply b_emissions_tok in H as Ht end. simpl. rewrite Ht. apply alw_eq; [lia|done].
    + match goal with H : b_withdraw _ _ _ _ _ = Ok _ |- _ => unfold b_withdraw in H; mon H end. subst. xfer. simpl. by eapply alw_move in Hm.
    + unfold b_draw in E0. mon E0. subst. simpl. xfer. by eapply alw_move in Hm.
    + unfold b_donate in E0. mon E0. subst. simpl. xfer. by eapply alw_move in Hm.
    + match goal with H : b_update_tkn_val _ _ = Ok _ |- _ => unfold b_update_tkn_val in H; mon H end. subst. apply alw_eq; [lia|done].
    + match goal with H : b_drop _ _ = Ok _ |- _ => unfold b_drop in H; mon H; apply drop_blnd in H as (n & _ & _ & _ & B) end. apply alw_eq; [lia|done].
    + match goal with H : b_add_reward _ _ _ _ = Ok _ |- _ => unfold b_add_reward in H; mon H end. destruct (_ <? _); mon E0; subst; (apply alw_eq; [lia|done]).
    + match goal with H : b_gulp _ _ = Ok _ |- _ => apply b_gulp_fields, same_tok_bfields in H as -> end. apply alw_eq; [lia|done].
    + match goal with H : b_gulp_pool _ _ _ = Ok _ |- _ => unfold b_gulp_pool in H; mon H end. subst. simpl.
      match goal with H : approve _ _ _ _ _ _ _ = Ok _ |- _ => eapply alw_approve in H; [exact H|done] end.
    + match goal with H : b_claim _ _ _ _ _ _ = Ok _ |- _ => unfold b_claim in H; rename H into Hc end.
      apply bind_ok in Hc as (? & _ & Hc). apply assert_ok in Hc as [_ Hc]. apply bind_ok in Hc as ([[cl m] x1] & E1 & Hc). apply claim_loop_fields in E1 as (_ & _ & Etk & _ & Ht). cbn [snd] in Etk, Ht.
      destruct (0 <? cl) eqn:E0; [|injection Hc as <- <-; rewrite Ht; apply alw_eq; [lia|done]].
      apply assert_ok in Hc as [_ Hc]. apply bind_ok in Hc as (t1 & M1 & Hc). apply bind_ok in Hc as (t2 & M2 & Hc). apply bind_ok in Hc as (x2 & D & Hc). injection Hc as <- <-.
      apply claim_deps_tok in D. simpl in D. rewrite D. rewrite Ht in M1. eapply alw_trans; [by eapply alw_move|by eapply alw_mint].
    + xfer. by eapply alw_move in Hm.
    + simpl. match goal with H : approve _ _ _ _ _ _ _ = Ok _ |- _ => pose proof H as Hx; unfold approve in H; mon H; eapply alw_approve in Hx; [exact Hx|] end.
      match goal with H : need_auth _ _ = Ok _ |- _ => apply need_auth_ok in H end. intros ->. congruence.
    + simpl. match goal with H : transfer_from _ _ _ _ _ _ _ = Ok _ |- _ => by apply (alw_spend _ tok u) in H end.
    + match goal with H : burn _ _ _ _ _ = Ok _ |- _ => unfold burn in H; mon H end. subst. apply alw_eq; [lia|done].
    + simpl. match goal with H : mint _ _ _ _ = Ok _ |- _ => by eapply alw_mint in H end.
  - apply assert_ok in H as [_ H]. apply bind_ok in H as (p & Hp & H). apply bind_ok in H as ([out0 px] & E & H). injection H as <- <-. apply p_exec_xmoves in E. simpl in E. simpl.
    by apply (alw_xmoves _ _ tok u) in E.
  - apply assert_ok in H as [_ H]. apply bind_ok in H as (v & _ & H). destruct (w_pools w !! _); [done|]. mon H. subst. apply alw_eq; [simpl; lia|done].
  - apply assert_ok in H as [_ H]. destruct (w_pools w !! _); [done|]. mon H. subst. apply alw_eq; [simpl; lia|done].
  - mon H. subst. apply alw_eq; [simpl; lia|done].
  - mon H. subst. apply alw_eq; [simpl; lia|done].
  - mon H. subst. apply alw_eq; [simpl; lia|done].
  - destruct (w_pools w !! _); mon H; subst; (apply alw_eq; [simpl; lia|done]).
  - destruct (w_pools w !! _); mon H; subst; (apply alw_eq; [simpl; lia|done]).
  - mon H. subst. apply alw_eq; [simpl; lia|done].
Qed.

(** an address that has given no allowances and does not sign keeps its tokens for ever *)
Theorem C69_wallets_forever : forall w l tok u,
  reachable w -> 3 < u -> Forall (fun o => u ∉ signers o) l -> (forall s, approved w tok u s <= 0) ->
  held w tok u <= held (run w l) tok u.
Proof.
  intros w l. revert w. induction l as [|o l IH]; intros w tok u Hr Hu Hl Ha; [done|]. apply Forall_cons in Hl as [Ho Hl].
  cbn [run fold_left]. change (fold_left _ l _) with (run (step w o) l). unfold step. destruct (exec w o) as [[out w']|e] eqn:E; [|by apply IH].
  etrans; [|apply IH; try done; [by eapply reachable_step|]].
  - by eapply C69_wallets.
  - intros s. pose proof (alw_exec _ _ _ _ tok u E Hu Ho s) as Hx. cbv beta zeta in Hx. specialize (Ha s). unfold approved in *. lia.
Qed.
