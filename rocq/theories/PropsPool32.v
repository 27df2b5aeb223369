(** * Earned pool emissions can be claimed (C73): the pool's allowance, and the claim *)
From Verif Require Import Base Types Token Emitter Factory Backstop PoolReserve PoolUser PoolHealth
  PoolAuction PoolSubmit PoolEmis PoolAdmin World Facts XMove Spec FrameFacts PoolFrame PoolCfg PoolAccrue PoolTrace PoolInv AuctionFacts
  PoolSim PoolReq PoolHF PoolOps PoolLiq PoolReach PoolTx PoolEmisInv PoolEmisTx BackMoves BackInv BackEmis PropsEmitter PropsAdmin PropsAdmin3 PropsBackstop
  PropsBackstop3 PropsBackstop4 PropsPool1 PropsPool3 PropsPool9 PropsPool10 PoolLive PropsPool28 PropsToken PropsBackstop9 PropsPool31.

(** ** Observers *)
(** the part of its allowance that pool [a] loses in a [gulp_emissions] call: the allowance that has expired *)
Definition pool_lost (a : Addr) (w : World) (o : Op) (w' : World) : Z :=
  match o with
  | OPool _ b PGulp => if (b =? a) && is_ok (exec w o) then granted w (bs_blnd (x_bs (w_ext w))) bs_addr a - approved w (bs_blnd (x_bs (w_ext w))) bs_addr a else 0
  | _ => 0
  end.

(** ** The allowance of a pool *)
(** the entry of [a] does not change *)
Definition ua (K a : Addr) (x x' : Ext) : Prop := tk_allow (x_tok x') !! (K, bs_addr, a) = tk_allow (x_tok x) !! (K, bs_addr, a).
Lemma ua_eq K a x x' : tk_allow (x_tok x') = tk_allow (x_tok x) -> ua K a x x'.
Proof. unfold ua. by intros ->. Qed.
Lemma ua_spend K a c x k sp from to n t : sp <> a -> transfer_from c (x_tok x) k sp from to n = Ok t -> ua K a x (x <| x_tok := t |>).
Proof.
  intros Hs H. unfold transfer_from in H. mon H. apply tok_move_spec in H as (_ & Ha & _). unfold ua. simpl. rewrite Ha.
  destruct (tk_allow (x_tok x) !! (k, from, sp)) as [[v live]|]; [|done]. destruct (n =? 0); [done|]. simpl. rewrite lookup_insert_ne; [done|]. intros [= ? ? ?]. done.
Qed.
Lemma ua_approve K a c x k from sp n live t : sp <> a \/ from <> bs_addr -> approve c (x_tok x) k from sp n live = Ok t -> ua K a x (x <| x_tok := t |>).
Proof. intros Hs H. unfold approve in H. mon H. subst. unfold ua. simpl. rewrite lookup_insert_ne; [done|]. intros [= ? ? ?]. subst. by destruct Hs. Qed.
Lemma ua_gulp_pool K a c x p n x' : p <> a -> b_gulp_pool c x p = Ok (n, x') -> ua K a x x'.
Proof.
  intros Hp H. unfold b_gulp_pool in H. mon H. subst. match goal with H : approve _ _ _ _ _ _ _ = Ok _ |- _ => eapply (ua_approve K a) in H; [exact H|by left] end.
Qed.
Lemma ua_trans K a x y z : ua K a x y -> ua K a y z -> ua K a x z. Proof. unfold ua. congruence. Qed.
Lemma ua_xmoves K a c self x x' : self <> a -> xmoves c self x x' -> ua K a x x'.
Proof.
  intros Hs H. induction H as [|x y z H _ IH]; [done|]. eapply ua_trans; [|exact IH]. clear IH. destruct H.
  - apply ua_eq. simpl. by apply tok_move_spec in H0 as (_ & ? & _).
  - by eapply ua_spend.
  - unfold b_draw in H. mon H. subst. xfer. apply ua_eq. simpl. by apply tok_move_spec in Hm as (_ & ? & _).
  - unfold b_donate in H. mon H. subst. xfer. apply ua_eq. simpl. by apply tok_move_spec in Hm as (_ & ? & _).
  - by eapply ua_gulp_pool.
  - done.
Qed.

(** a submission changes no allowance *)
Definition qa (x x' : Ext) : Prop := tk_allow (x_tok x') = tk_allow (x_tok x).
Lemma qa_trans x y z : qa x y -> qa y z -> qa x z. Proof. unfold qa. congruence. Qed.
Lemma qa_burns self ch m x : qa x (log_burns self ch m x).
Proof. unfold log_burns. induction (entries m) as [|e l IH]; simpl; [done|]. exact IH. Qed.
Lemma qa_draw c x p n to x' : b_draw c x p n to = Ok x' -> qa x x'.
Proof. unfold b_draw. intros H. mon H. subst. xfer. unfold qa. simpl. by apply tok_move_spec in Hm as (_ & ? & _). Qed.
Lemma qa_donate c x from p n x' : b_donate c x from p n = Ok x' -> qa x x'.
Proof. unfold b_donate. intros H. mon H. subst. xfer. unfold qa. simpl. by apply tok_move_spec in Hm as (_ & ? & _). Qed.
Lemma qa_bad_debt c self p x ch au filler fpos s x' : fill_bad_debt c self p x ch au filler fpos = Ok (s, x') -> qa x x'.
Proof.
  unfold fill_bad_debt. intros H. mon H.
  assert (qa x x0) by (by eapply qa_draw).
  destruct (bool_decide _); [by mon H|].
  mon H. destruct (threshold pd <? 3); mon H; [|done].
  eapply qa_trans; [eassumption|]. apply qa_burns.
Qed.
Lemma qa_interest c self p x ch au filler ch' x' : fill_interest c self p x ch au filler = Ok (ch', x') -> qa x x'.
Proof.
  unfold fill_interest. intros H. mon H. eapply qa_trans; [by eapply qa_donate|].
  change x' with (snd (ch', x')). change x0 with (snd (ch, x0)).
  eapply (foldM_rel (fun s s' => qa (snd s) (snd s'))); [| | |exact H].
  - done.
  - intros; eapply qa_trans; eauto.
  - intros [ch0 x1] e [ch1 x2] _ Hs. unfold interest_fill_one in Hs. mon Hs.
    simpl. unfold qa. simpl. by eapply transfer_allow.
Qed.
Lemma qa_fill c self p x ch t user filler fpos pct s x' : fill c self p x ch t user filler fpos pct = Ok (s, x') -> qa x x'.
Proof.
  unfold fill. intros H. mon H. destruct (t =? 0); [by mon E1|]. destruct (t =? 1); [by eapply qa_bad_debt|].
  destruct (t =? 2); [|discriminate]. mon E1. by eapply qa_interest.
Qed.
Lemma qa_request c self from s q s' : do_request c self from s q = Ok s' -> qa (lo_x s) (lo_x s').
Proof.
  unfold do_request. intros H. mon H.
  assert (forall t chk, do_fill c self from t chk s q = Ok s' -> qa (lo_x s) (lo_x s')) as Hf.
  { intros t chk Hd. unfold do_fill in Hd. mon Hd. simpl. by eapply qa_fill. }
  repeat match type of H with
  | match ?x with _ => _ end = Ok _ => destruct x
  | Err _ = Ok _ => discriminate H
  end; try (by eapply Hf);
  unfold do_supply, do_delete, do_repay, do_withdraw_coll, do_borrow, do_supply_coll, do_withdraw in H;
  mon H; try (destruct (_ <? _); mon H); done.
Qed.
Lemma qa_actions c self p x ch from qs s : build_actions c self p x ch from qs = Ok s -> qa x (lo_x s).
Proof.
  unfold build_actions. intros H. mon H.
  eapply (foldM_rel (fun s s' => qa (lo_x s) (lo_x s'))) in E; [exact E|..].
  - done.
  - intros; eapply qa_trans; eauto.
  - intros; by eapply qa_request.
Qed.
Lemma qa_submit c self px from spender to qs pos px' : p_submit c self px from spender to qs = Ok (pos, px') -> qa (px_x px) (px_x px').
Proof.
  unfold p_submit. intros H. mon H. simpl.
  match goal with H : build_actions _ _ _ _ _ _ _ = Ok _ |- _ => apply qa_actions in H as Hq end.
  repeat match goal with H : transfer_all _ _ _ _ _ = Ok _ |- _ => apply transfer_all_allow in H end. unfold qa in *. simpl in *. congruence.
Qed.

(** an operation outside the pools *)
Lemma ua_ext K a c x o out x' : a < 0 -> (forall u, c_auth c u = true -> 3 < u) -> x_exec c x o = Ok (out, x') -> ua K a x x'.
Proof.
  intros Ha Hau E.
  assert (c_auth c bs_addr = false) as Hbs. { apply not_true_iff_false. intros Hm. apply Hau in Hm. unfold bs_addr in Hm. lia. }
  destruct o; simpl in E.
  all: unfold ret_unit, ret_z in E; mon E; subst.
  - unfold em_initialize in E0. mon E0. by subst.
  - match goal with H : em_distribute _ _ = Ok _ |- _ => unfold em_distribute in H; mon H; apply distribute_blnd in H as (n & _ & _ & _ & B) end. by apply ua_eq.
  - unfold em_queue_swap in E0. mon E0. by subst.
  - unfold em_cancel_swap in E0. mon E0. by subst.
  - match goal with H : em_swap_backstop _ _ = Ok _ |- _ => unfold em_swap_backstop in H; mon H end. subst.
    match goal with H : em_execute_distribute _ _ _ = Ok _ |- _ => apply distribute_blnd in H as (n & _ & _ & _ & B) end. by apply ua_eq.
  - match goal with H : em_drop _ _ _ = Ok _ |- _ => apply drop_blnd in H as (n & _ & _ & _ & B) end. by apply ua_eq.
  - unfold fa_initialize in E0. mon E0. by subst.
  - unfold b_initialize in E0. mon E0. by subst.
  - match goal with H : b_deposit _ _ _ _ _ = Ok _ |- _ => unfold b_deposit in H; mon H end. subst. xfer. apply tok_move_spec in Hm as (_ & A & _).
    match goal with H : b_emissions _ _ _ _ _ _ _ = Ok _ |- _ => apply b_emissions_tok in H as Ht end. apply ua_eq. simpl. congruence.
  - match goal with H : b_queue _ _ _ _ _ = Ok _ |- _ => unfold b_queue in H; mon H end. subst.
    match goal with H : b_emissions _ _ _ _ _ _ _ = Ok _ |- _ => apply b_emissions_tok in H as Ht end. apply ua_eq. simpl. by rewrite Ht.
  - match goal with H : b_dequeue _ _ _ _ _ = Ok _ |- _ => unfold b_dequeue in H; mon H end. subst.
    match goal with H : b_emissions _ _ _ _ _ _ _ = Ok _ |- _ => apply b_emissions_tok in H as Ht end. apply ua_eq. simpl. by rewrite Ht.
  - match goal with H : b_withdraw _ _ _ _ _ = Ok _ |- _ => unfold b_withdraw in H; mon H end. subst. xfer. apply tok_move_spec in Hm as (_ & A & _). by apply ua_eq.
  - apply ua_eq. by eapply qa_draw.
  - apply ua_eq. by eapply qa_donate.
  - match goal with H : b_update_tkn_val _ _ = Ok _ |- _ => unfold b_update_tkn_val in H; mon H end. by subst.
  - match goal with H : b_drop _ _ = Ok _ |- _ => unfold b_drop in H; mon H; apply drop_blnd in H as (n & _ & _ & _ & B) end. by apply ua_eq.
  - match goal with H : b_add_reward _ _ _ _ = Ok _ |- _ => unfold b_add_reward in H; mon H end. destruct (_ <? _); mon E0; by subst.
  - match goal with H : b_gulp _ _ = Ok _ |- _ => apply b_gulp_fields, same_tok_bfields in H as Ht end. apply ua_eq. by rewrite Ht.
  - match goal with H : b_gulp_pool _ _ _ = Ok _ |- _ => pose proof H as Hx; apply gulp_pool_spec in Hx as (Hx & _); apply Hau in Hx; eapply ua_gulp_pool; [|exact H]; lia end.
  - match goal with H : b_claim _ _ _ _ _ _ = Ok _ |- _ => unfold b_claim in H; rename H into Hc end.
    apply bind_ok in Hc as (? & _ & Hc). apply assert_ok in Hc as [_ Hc]. apply bind_ok in Hc as ([[cl m] x1] & E1 & Hc). apply claim_loop_fields in E1 as (_ & _ & Etk & _ & Ht). cbn [snd] in Etk, Ht.
    destruct (0 <? cl) eqn:E0; [|injection Hc as <- <-; apply ua_eq; by rewrite Ht].
    apply assert_ok in Hc as [_ Hc]. apply bind_ok in Hc as (t1 & M1 & Hc). apply bind_ok in Hc as (t2 & M2 & Hc). apply bind_ok in Hc as (x2 & D & Hc). injection Hc as <- <-.
    apply claim_deps_tok in D. simpl in D. apply mint_spec in M2 as (_ & A2 & _). apply tok_move_spec in M1 as (_ & A1 & _). apply ua_eq. rewrite D, A2, A1. by rewrite Ht.
  - xfer. apply ua_eq. simpl. by apply tok_move_spec in Hm as (_ & ? & _).
  - match goal with H : approve _ _ _ _ _ _ _ = Ok _ |- _ => pose proof H as Hx; unfold approve in Hx; mon Hx; eapply ua_approve; [|exact H]; right end.
    match goal with H : need_auth _ _ = Ok _ |- _ => apply need_auth_ok in H end. intros ->. congruence.
  - match goal with H : transfer_from _ _ _ _ _ _ _ = Ok _ |- _ => pose proof H as Hx; apply transfer_from_spec in Hx as (_ & Hx & _); apply Hau in Hx; eapply ua_spend; [|exact H]; lia end.
  - match goal with H : burn _ _ _ _ _ = Ok _ |- _ => unfold burn in H; mon H end. by subst.
  - match goal with H : mint _ _ _ _ = Ok _ |- _ => apply mint_spec in H as (_ & A & _) end. by apply ua_eq.
Qed.

(** a gulp by the pool, a claim from the pool *)
Lemma gulp_gr K c self px z px' : p_gulp c self px = Ok (z, px') -> good K (px_x px) ->
  bs_blnd (x_bs (px_x px)) = K /\ gr K (px_x px') self = z + allowance c (x_tok (px_x px)) K bs_addr self.
Proof.
  unfold p_gulp, to_backstop. intros H Hg. apply bind_ok in H as ([new x] & E & H). apply bind_ok in H as (p1 & _ & H). injection H as <- <-. apply assert_ok in E as [_ E]. unfold b_gulp_pool in E. mon E. subst.
  match goal with H : i128 _ = Ok _ |- _ => apply i128_ok in H as [-> _] end.
  match goal with H : approve _ _ _ _ _ _ _ = Ok _ |- _ => unfold approve in H; mon H; subst end.
  match goal with H : bs_init _ = true |- _ => destruct (Hg H) as [<- _] end.
  split; [done|]. unfold gr. simpl. rewrite lookup_insert. simpl. change (allowance (as_contract c self)) with (allowance c). lia.
Qed.
Lemma claim_gr K c self px from ids to z px' : p_claim c self px from ids to = Ok (z, px') -> ps_blnd (px_p px) = K -> ps_backstop (px_p px) = bs_addr -> 0 <= z ->
  gr K (px_x px') self + z = gr K (px_x px) self.
Proof.
  intros Hc Hb1 Hb2 Hz. unfold p_claim in Hc.
  apply bind_ok in Hc as (? & _ & Hc). apply bind_ok in Hc as ([tot p'] & Hf & Hc). destruct (0 <? tot) eqn:Et.
  - apply bind_ok in Hc as (t & Ht & Hc). injection Hc as <- <-. rewrite Hb1, Hb2 in Ht.
    unfold transfer_from in Ht. mon Ht. apply tok_move_spec in Ht as (_ & Hal & _). unfold gr. simpl. rewrite Hal. unfold allowance in *.
    destruct (tk_allow (x_tok (px_x px)) !! (K, bs_addr, self)) as [[v live]|] eqn:Ek; [|lia].
    rewrite (proj2 (Z.eqb_neq tot 0)) by lia. simpl. rewrite lookup_insert. simpl in *. destruct (live <? c_seq c); lia.
  - injection Hc as <- <-. unfold gr. simpl. lia.
Qed.
Lemma granted_gr w K p : granted w K bs_addr p = gr K (w_ext w) p.
Proof. unfold granted, gr. by destruct (tk_allow _ !! _) as [[? ?]|]. Qed.

Lemma grant_step K a w o out w' : reachable w -> exec w o = Ok (out, w') -> a < 0 ->
  (ps_init (pool w a) = true -> ps_blnd (pool w a) = K /\ ps_backstop (pool w a) = bs_addr) -> good K (w_ext w) ->
  granted w' K bs_addr a + pool_claimed a w o w' + pool_lost a w o w' = granted w K bs_addr a + pool_gulped a w o w'.
Proof.
  intros Hr H Ha Hp Hg.
  assert (forall x', ua K a (w_ext w) x' -> w_ext w' = x' -> granted w' K bs_addr a = granted w K bs_addr a) as Hua by (intros x' Hu Hx; unfold granted; rewrite Hx; by rewrite Hu).
  destruct o as [sg o|sg b po|sg ad sa orc ra mp|b|dt ds|orc|n|b t u|b r|].
  - cbn [pool_claimed pool_gulped pool_lost]. rewrite !Z.add_0_r. simpl in H. apply assert_ok in H as [Hsg H]. apply andb_true_iff in Hsg as [Hsg _]. apply bind_ok in H as ([out0 x] & E & H). injection H as <- <-.
    apply (Hua x); [|done]. eapply ua_ext; [done| |exact E]. intros u Hu. simpl in Hu. apply mem_addr_elem in Hu. by apply (signer_pos _ _ Hsg).
  - destruct (Z.eqb_spec b a) as [->|Hne].
    2:{ assert (pool_claimed a w (OPool sg b po) w' = 0 /\ pool_gulped a w (OPool sg b po) w' = 0 /\ pool_lost a w (OPool sg b po) w' = 0) as (-> & -> & ->).
        { apply Z.eqb_neq in Hne. unfold pool_claimed, pool_gulped, pool_lost. rewrite Hne. by destruct po. }
        rewrite !Z.add_0_r. apply exec_opool in H as (_ & _ & _ & px & E & _ & Hx & _). apply (Hua (px_x px)); [|done]. apply p_exec_xmoves in E. simpl in E. by eapply ua_xmoves. }
    assert (forall u ids to, po = PClaim u ids to -> ps_init (pool w a) = true -> forall n, out = OutZ n -> 0 <= n) as Hcl.
    { intros u ids to -> Hi n ->. eapply C34_claim_exact in H as (_ & [= <-] & H & _); done. }
    pose proof H as H0. apply exec_opool in H as (_ & _ & _ & px & E & _ & Hx & _).
    assert (match po with PGulp | PClaim _ _ _ => True | _ => qa (w_ext w) (px_x px) end) as Hq.
    { destruct po; try exact I; simpl in E; unfold on_pool, ret_z in E; mon E; simpl; try done.
      match goal with H : p_submit _ _ _ _ _ _ _ = Ok _ |- _ => by apply qa_submit in H end. }
    destruct po; try (cbn [pool_claimed pool_gulped pool_lost]; rewrite ?Z.add_0_r; apply (Hua (px_x px)); [by apply ua_eq|done]); clear Hq;
      unfold pool_claimed, pool_gulped, pool_lost, returned; rewrite H0, Z.eqb_refl; cbn [is_ok andb].
    + (* gulp *) simpl in E. apply assert_ok in E as [Hin E]. unfold ret_z in E. apply bind_ok in E as ([z px1] & E & E'). injection E' as <- ->.
      apply (gulp_gr K) in E as [Hk E]; [|done]. cbn [px_x] in Hk, E. rewrite Hk, !granted_gr, Hx, E. unfold approved, allowance. simpl. lia.
    + (* claim *) simpl in E. apply assert_ok in E as [Hin E]. unfold ret_z in E. apply bind_ok in E as ([z px1] & E & E'). injection E' as <- ->. destruct (Hp Hin) as [Hb1 Hb2].
      pose proof (Hcl _ _ _ eq_refl Hin z eq_refl) as Hz. apply (claim_gr K) in E; [|done|done|done]. cbn [px_x] in E. rewrite !granted_gr, Hx. lia.
  - cbn [pool_claimed pool_gulped pool_lost]. rewrite !Z.add_0_r. simpl in H. apply assert_ok in H as [_ H]. apply bind_ok in H as (v & _ & H). destruct (w_pools w !! _); [done|]. mon H. by subst.
  - cbn [pool_claimed pool_gulped pool_lost]. rewrite !Z.add_0_r. simpl in H. apply assert_ok in H as [_ H]. destruct (w_pools w !! _); [done|]. mon H. by subst.
  - cbn [pool_claimed pool_gulped pool_lost]. rewrite !Z.add_0_r. simpl in H. mon H. by subst.
  - cbn [pool_claimed pool_gulped pool_lost]. rewrite !Z.add_0_r. simpl in H. mon H. by subst.
  - cbn [pool_claimed pool_gulped pool_lost]. rewrite !Z.add_0_r. simpl in H. mon H. by subst.
  - cbn [pool_claimed pool_gulped pool_lost]. rewrite !Z.add_0_r. simpl in H. destruct (w_pools w !! _); mon H; by subst.
  - cbn [pool_claimed pool_gulped pool_lost]. rewrite !Z.add_0_r. simpl in H. destruct (w_pools w !! _); mon H; by subst.
  - cbn [pool_claimed pool_gulped pool_lost]. rewrite !Z.add_0_r. simpl in H. mon H. by subst.
Qed.

Lemma lost_err w a o e : exec w o = Err e -> pool_lost a w o w = 0.
Proof. intros E. unfold pool_lost. rewrite E. destruct o as [|? b []| | | | | | | |]; try done. simpl. by rewrite andb_false_r. Qed.
Lemma grant_run K a w0 l : initial w0 -> a < 0 ->
  (ps_init (pool (run w0 l) a) = true -> ps_blnd (pool (run w0 l) a) = K /\ ps_backstop (pool (run w0 l) a) = bs_addr) -> good K (w_ext (run w0 l)) ->
  granted (run w0 l) K bs_addr a + sumh (pool_claimed a) w0 l + sumh (pool_lost a) w0 l = sumh (pool_gulped a) w0 l.
Proof.
  intros Hi Ha. induction l as [|o l IH] using rev_ind; intros Hp Hg.
  - destruct Hi as (now & seq & t & or & lp & -> & _ & _ & [Hb Hal] & _). match goal with |- context [run ?w []] => change (run w []) with w end. simpl. rewrite !Z.add_0_r.
    unfold granted. simpl. destruct (tk_allow t !! (K, bs_addr, a)) as [[n lv]|] eqn:E; [|done]. apply Hal in E as [_ E]. unfold bs_addr in E. lia.
  - rewrite !sumh_app, run_snoc in *. simpl. rewrite !Z.add_0_r. set (w := run w0 l) in *.
    assert (reachable w) as Hr by (by exists w0, l). pose proof (C61_initialized_once w [o]) as (_ & _ & C2 & C3). cbv zeta in C2, C3. change (run w [o]) with (step w o) in C2, C3.
    assert (good K (w_ext w)) as Hg'. { intros Hx. destruct (C2 Hx) as (C4 & C5 & C6 & _). destruct (Hg C4) as [C7 C8]. split; congruence. }
    assert (ps_init (pool w a) = true -> ps_blnd (pool w a) = K /\ ps_backstop (pool w a) = bs_addr) as Hp'.
    { intros Hx. destruct (C3 a Hx) as (C4 & C5 & C6 & _). destruct (Hp C4) as [C7 C8]. split; congruence. }
    specialize (IH Hp' Hg'). unfold step in *. destruct (exec w o) as [[out w']|] eqn:E.
    + pose proof (grant_step K a _ _ _ _ Hr E Ha Hp' Hg'). lia.
    + destruct (claimed_err w a o _ E) as [-> ->]. rewrite (lost_err w a o _ E). lia.
Qed.

(** ** C73: the ledger of a pool's allowance *)
(** For every pool connected to the backstop: the unspent allowance of the pool is exactly what it has received from the backstop, less what
    has been claimed from it, less what it lost because an allowance had expired. *)
Theorem C73_allowance_ledger : forall w0 l a,
  initial w0 ->
  let w := run w0 l in let blnd := bs_blnd (x_bs (w_ext w)) in
  ps_init (pool w a) = true -> ps_blnd (pool w a) = blnd -> ps_backstop (pool w a) = bs_addr -> bs_token (x_bs (w_ext w)) <> blnd ->
  granted w blnd bs_addr a + sumh (pool_claimed a) w0 l + sumh (pool_lost a) w0 l = sumh (pool_gulped a) w0 l.
Proof.
  intros w0 l a Hi w blnd Hp Hb Hbs Hne. assert (reachable w) as Hr by (by exists w0, l).
  assert (a < 0) as Ha. { unfold pool in Hp. destruct (w_pools w !! a) as [q|] eqn:Eq; [by eapply pools_neg|done]. }
  by apply grant_run.
Qed.
(** So all that any users could claim now, on all of the pool's tokens, is covered by the allowance unless some of it was lost. *)
Theorem C73_allowance_covers : forall w0 l a users ids,
  initial w0 -> NoDup users -> NoDup ids ->
  let w := run w0 l in let blnd := bs_blnd (x_bs (w_ext w)) in
  ps_init (pool w a) = true -> ps_blnd (pool w a) = blnd -> ps_backstop (pool w a) = bs_addr -> bs_token (x_bs (w_ext w)) <> blnd ->
  sumz (fun id => sumz (fun u => claimable (w_now w) (pool w a) u id) users) ids <= granted w blnd bs_addr a + sumh (pool_lost a) w0 l.
Proof.
  intros w0 l a users ids Hi Hu Hd w blnd Hp Hb Hbs Hne.
  pose proof (C73_allowance_ledger w0 l a Hi Hp Hb Hbs Hne) as A. pose proof (C73_earned_is_covered w0 l a users ids Hi Hu Hd Hp) as B. cbv zeta in A, B. subst w blnd. lia.
Qed.
