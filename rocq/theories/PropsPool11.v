(** * Solvency of pools (C03) *)
From Verif Require Import Base Types Token Emitter Factory Backstop PoolReserve PoolUser PoolHealth
  PoolAuction PoolSubmit PoolEmis PoolAdmin World Facts XMove Spec FrameFacts PoolFrame PoolCfg PoolAccrue PoolTrace PoolInv AuctionFacts
  PoolSim PoolReq PoolHF PoolOps PoolLiq PoolReach PoolTx PoolEmisTx BackMoves BackInv PropsAdmin PropsPool1 PropsPool3 PropsBackstop PropsBackstop3 PropsBackstop4 PoolSolv Scenario ScenarioPool.

(** ** Nobody but the pool itself moves the pool's tokens *)
Definition noallow (t : Tok) : Prop := forall k a s, a < 0 -> tk_allow t !! (k, a, s) = None.
(** the balances of [v] do not fall and no debt of pool [v] is burned *)
Definition tsafe (v : Addr) (t t' : Tok) : Prop := noallow t -> noallow t' /\ forall k, balance t k v <= balance t' k v.
Definition xsafe (v : Addr) (x x' : Ext) : Prop := tsafe v (x_tok x) (x_tok x') /\ forall r, burnt v r (x_log x') = burnt v r (x_log x).

Lemma tsafe_refl v t : tsafe v t t. Proof. intros H. split; [done|]. intros; lia. Qed.
Lemma tsafe_trans v t t1 t2 : tsafe v t t1 -> tsafe v t1 t2 -> tsafe v t t2.
Proof. intros A B H. destruct (A H) as [H1 A1]. destruct (B H1) as [H2 B1]. split; [done|]. intros k. specialize (A1 k). specialize (B1 k). lia. Qed.
Lemma xsafe_refl v x : xsafe v x x. Proof. split; [apply tsafe_refl|done]. Qed.
Lemma xsafe_trans v x x1 x2 : xsafe v x x1 -> xsafe v x1 x2 -> xsafe v x x2.
Proof. intros [A1 A2] [B1 B2]. split; [by eapply tsafe_trans|]. intros r. by rewrite B2. Qed.
Lemma xsafe_same v x x' : x_tok x' = x_tok x -> x_log x' = x_log x -> xsafe v x x'.
Proof. intros E1 E2. unfold xsafe. rewrite E1, E2. split; [apply tsafe_refl|done]. Qed.
Lemma xsafe_tok v x t : tsafe v (x_tok x) t -> xsafe v x (x <| x_tok := t |>).
Proof. by split. Qed.

Lemma tok_move_tsafe v t k f to n t' : f <> v -> tok_move t k f to n = Ok t' -> tsafe v t t'.
Proof.
  intros Hf H Hn. apply tok_move_spec in H as (H1 & Ha & _ & Hb & _). split.
  - intros q a s Hs. rewrite Ha. by apply Hn.
  - intros q. rewrite Hb. repeat case_bool_decide; destruct_and?; subst; try congruence; lia.
Qed.
Lemma transfer_tsafe v c t k f to n t' : f <> v -> transfer c t k f to n = Ok t' -> tsafe v t t'.
Proof. intros Hf H. apply transfer_move in H as [_ H]. by eapply tok_move_tsafe. Qed.
Lemma transfer_from_tsafe v c t k s f to n t' : v < 0 -> transfer_from c t k s f to n = Ok t' -> tsafe v t t'.
Proof.
  intros Hv H Hn. apply transfer_from_spec in H as (Ha & _ & Hk & Hk2 & t1 & Hb & Hm). split.
  - intros q a b Hneg. destruct (decide ((q, a, b) = (k, f, s))) as [[= -> -> ->]|Hne]; [apply Hk2; by apply Hn|]. rewrite Hk by done. by apply Hn.
  - intros q. replace (balance t q v) with (balance t1 q v) by (unfold balance; by rewrite Hb).
    apply tok_move_spec in Hm as (H1 & _ & _ & Hbal & _). rewrite Hbal.
    destruct (decide (f = v)) as [->|Hne]; [|repeat case_bool_decide; destruct_and?; subst; try congruence; lia].
    unfold allowance in Ha. rewrite Hn in Ha by done. repeat case_bool_decide; destruct_and?; subst; try congruence; lia.
Qed.
Lemma mint_tsafe v t k to n t' : mint t k to n = Ok t' -> tsafe v t t'.
Proof.
  intros H Hn. pose proof H as H0. apply mint_spec in H as (H1 & _ & _ & Hb). split.
  - unfold mint in H0. mon H0. exact Hn.
  - intros q. rewrite Hb. case_bool_decide; lia.
Qed.
Lemma approve_tsafe v c t k f s n l t' : 0 <= f -> approve c t k f s n l = Ok t' -> tsafe v t t'.
Proof.
  intros Hf H Hn. unfold approve in H. mon H. split; [|intros; unfold balance; simpl; lia].
  intros q a b Hneg. simpl. rewrite lookup_insert_ne; [by apply Hn|]. intros [= <- <- <-]. lia.
Qed.
Lemma burn_tsafe v c t k f n t' : f <> v -> burn c t k f n = Ok t' -> tsafe v t t'.
Proof.
  intros Hf H Hn. unfold burn in H. mon H. split; [exact Hn|]. intros q. rewrite balance_set_balance. case_bool_decide; [destruct_and?; congruence|lia].
Qed.

Lemma burnt_ev v r e log : (forall p b n m, e <> EvBurn p b n m) -> burnt v r (e :: log) = burnt v r log.
Proof. intros H. unfold burnt. rewrite sumz_cons. destruct e; try done. by exfalso; eapply H. Qed.
Lemma burnt_evs v r evs log : Forall (fun e => forall p b n m, e <> EvBurn p b n m) evs -> burnt v r (evs ++ log) = burnt v r log.
Proof. induction 1 as [|e evs He _ IH]; [done|]. rewrite <- app_comm_cons. by rewrite burnt_ev. Qed.

Lemma em_mint_xsafe v x to n x' : em_mint x to n = Ok x' -> xsafe v x x'.
Proof. unfold em_mint. intros H. mon H. split; [by eapply mint_tsafe|]. intros r. by apply burnt_ev. Qed.
Lemma distribute_xsafe v c x b n x' : em_execute_distribute c x b = Ok (n, x') -> xsafe v x x'.
Proof.
  unfold em_execute_distribute. intros H. mon H. 
  match goal with E : em_mint _ _ _ = Ok _ |- _ => apply (em_mint_xsafe v) in E; rename E into Em end.
  eapply xsafe_trans; [|exact Em]. by apply xsafe_same.
Qed.
Lemma drop_xsafe v c x l x' : em_drop c x l = Ok x' -> xsafe v x x'.
Proof.
  unfold em_drop. intros H. mon H.
  match goal with E : foldM (fun x p => em_mint _ _ _) _ _ = Ok ?y |- _ => apply (xsafe_trans v x y); [revert E|by apply xsafe_same] end.
  apply (foldM_rel (xsafe v)); [intros; apply xsafe_refl|intros; by eapply xsafe_trans|]. intros. by eapply em_mint_xsafe.
Qed.
Lemma draw_xsafe v c x p n t x' : v < 0 -> b_draw c x p n t = Ok x' -> xsafe v x x'.
Proof. intros Hv. unfold b_draw. intros H. mon H. split; [|done]. eapply transfer_tsafe; [|eassumption]. unfold bs_addr. lia. Qed.
Lemma donate_xsafe v c x f p n x' : f <> v -> b_donate c x f p n = Ok x' -> xsafe v x x'.
Proof. intros Hv. unfold b_donate. intros H. mon H. split; [|done]. eapply transfer_tsafe; eassumption. Qed.
Lemma gulp_pool_xsafe v c x p n x' : b_gulp_pool c x p = Ok (n, x') -> xsafe v x x'.
Proof.
  unfold b_gulp_pool. intros H. mon H. split.
  - simpl. eapply approve_tsafe; [|eassumption]. done.
  - intros r. by apply burnt_ev.
Qed.
(** the moves of another pool *)
Lemma xmoves_xsafe v c self x x' : v < 0 -> self <> v -> (forall a, c_auth c a = true -> 3 < a) -> xmoves c self x x' -> xsafe v x x'.
Proof.
  intros Hv Hs Hc. induction 1 as [x|x y z H _ IH]; [apply xsafe_refl|]. eapply xsafe_trans; [|exact IH]. destruct H.
  - apply xsafe_tok. eapply tok_move_tsafe; [|eassumption]. destruct H as [Ha| ->]; [|done]. apply Hc in Ha. lia.
  - apply xsafe_tok. by eapply transfer_from_tsafe.
  - by eapply draw_xsafe.
  - eapply donate_xsafe; [|eassumption]. unfold b_donate in H. mon H.
    match goal with E : transfer _ _ _ _ _ _ = Ok _ |- _ => apply transfer_move in E as [Ha _] end.
    apply as_contract_auth in Ha as [Ha| ->]; [|done]. apply Hc in Ha. lia.
  - by eapply gulp_pool_xsafe.
  - split; [apply tsafe_refl|]. intros r0. change (x_log (add_log ?e ?y)) with (e :: x_log y). unfold burnt. rewrite sumz_cons, (proj2 (Z.eqb_neq self v)) by done. done.
Qed.

Lemma x_exec_xsafe v w sg o out x' : reachable w -> v < 0 -> forallb ok_signer sg = true ->
  x_exec (ctx w sg) (w_ext w) o = Ok (out, x') -> xsafe v (w_ext w) x'.
Proof.
  intros Hr Hv Hsg0 E.
  assert (forall a, mem_addr a sg = true -> 3 < a) as Hsg.
  { intros a Ha. apply mem_addr_elem in Ha. by eapply signer_pos. }
  assert (forall c' t k f to n t', c' = ctx w sg -> transfer c' t k f to n = Ok t' -> tsafe v t t') as Htr.
  { intros c' t k f to n t' -> H. apply transfer_move in H as [Ha H]. simpl in Ha. apply Hsg in Ha. eapply tok_move_tsafe; [|exact H]. lia. }
  destruct o; simpl in E; unfold ret_unit, ret_z in E; mon E; simpl.
  - unfold em_initialize in E0. mon E0. by apply xsafe_same.
  - unfold em_distribute in E0. mon E0. by eapply distribute_xsafe.
  - unfold em_queue_swap in E0. mon E0. by apply xsafe_same.
  - unfold em_cancel_swap in E0. mon E0. by apply xsafe_same.
  - unfold em_swap_backstop in E0. mon E0.
    match goal with E : em_execute_distribute _ _ _ = Ok _ |- _ => apply (distribute_xsafe v) in E; eapply xsafe_trans; [exact E|] end. by apply xsafe_same.
  - by eapply drop_xsafe.
  - unfold fa_initialize in E0. mon E0. by apply xsafe_same.
  - unfold b_initialize in E0. mon E0. by apply xsafe_same.
  - unfold b_deposit in E0. mon E0.
    match goal with E : b_emissions _ _ _ _ _ _ _ = Ok _ |- _ => apply emis_frame_b in E as (? & ? & ->) end. simpl in *.
    split; [|done]. simpl. by eapply Htr.
  - unfold b_queue in E0. mon E0.
    match goal with E : b_emissions _ _ _ _ _ _ _ = Ok _ |- _ => apply emis_frame_b in E as (? & ? & ->) end. by apply xsafe_same.
  - unfold b_dequeue in E0. mon E0.
    match goal with E : b_emissions _ _ _ _ _ _ _ = Ok _ |- _ => apply emis_frame_b in E as (? & ? & ->) end. by apply xsafe_same.
  - unfold b_withdraw in E0. mon E0. split; [|done]. simpl.
    match goal with E : transfer _ _ _ _ _ _ = Ok _ |- _ => eapply transfer_tsafe; [|exact E] end. unfold bs_addr. lia.
  - by eapply draw_xsafe.
  - eapply donate_xsafe; [|eassumption]. unfold b_donate in E0. mon E0.
    match goal with E : transfer _ _ _ _ _ _ = Ok _ |- _ => apply transfer_move in E as [Ha _] end. simpl in Ha. apply Hsg in Ha. lia.
  - unfold b_update_tkn_val in E0. mon E0. by apply xsafe_same.
  - unfold b_drop in E0. mon E0. eapply xsafe_trans; [by eapply drop_xsafe|]. by apply xsafe_same.
  - unfold b_add_reward in E0. mon E0. destruct (_ <? _); mon E0; by apply xsafe_same.
  - pose proof (gulp_tok _ _ _ _ E0) as Ht. destruct (b_gulp_spec _ _ _ _ _ E0 (reachable_binv _ Hr)) as (em & tot & evs & _ & _ & _ & _ & _ & Hl & Hf & _).
    unfold xsafe. rewrite Ht, Hl. split; [apply tsafe_refl|]. intros r. apply burnt_evs. apply Forall_rev. clear -Hf.
    induction Hf as [|p e l evs (n & s & _ & _ & ->) _ IH]; [done|]. by constructor.
  - by eapply gulp_pool_xsafe.
  - destruct (claim_logged _ _ _ _ _ _ _ _ E0) as (evs & Hl & Hf & _). split.
    2:{ intros r. rewrite Hl. apply burnt_evs, Forall_rev. clear -Hf. induction Hf as [|p e l evs (n & ->) _ IH]; [done|]. by constructor. }
    unfold b_claim in E0. mon1 E0. mon1 E0. apply bind_ok in E0 as ([[n1 m1] x1] & H1 & H2).
    apply claim_loop_tok in H1. rewrite <- H1. destruct (0 <? n1); mon H2; [|apply tsafe_refl].
    match goal with E : foldM (claim_dep _ _ _ _) _ _ = Ok _ |- _ => apply (foldM_rel (fun y z => x_tok z = x_tok y)) in E; [rewrite E| done | congruence |] end.
    + simpl. eapply tsafe_trans; [|eapply mint_tsafe; eassumption]. eapply tok_move_tsafe; [|eassumption]. unfold bs_addr. lia.
    + intros s a s' _ E'. unfold claim_dep in E'. by mon E'.
  - apply xsafe_tok. by eapply Htr.
  - apply xsafe_tok. eapply approve_tsafe; [|eassumption]. unfold approve in E0. mon E0. apply need_auth_ok in E. simpl in E. apply Hsg in E. lia.
  - apply xsafe_tok. by eapply transfer_from_tsafe.
  - apply xsafe_tok. eapply burn_tsafe; [|eassumption]. unfold burn in E0. mon E0. apply need_auth_ok in E. simpl in E. apply Hsg in E. lia.
  - apply xsafe_tok. by eapply mint_tsafe.
Qed.

(** every transaction but a call of the pool itself *)
Lemma exec_xsafe v w o out w' : reachable w -> v < 0 -> (forall sg po, o <> OPool sg v po) -> exec w o = Ok (out, w') -> xsafe v (w_ext w) (w_ext w').
Proof.
  intros Hr Hv Hno H. unfold exec in H. destruct o as [sg o|sg a o|sg ad sa orc ra mp|b|dt ds|orc|n|b t u|b r|].
  - apply assert_ok in H as [G H]. apply andb_prop in G as [G _]. apply bind_ok in H as ([o' x'] & E & H). injection H as <- <-. by eapply x_exec_xsafe.
  - apply assert_ok in H as [G H]. apply andb_prop in G as [G _]. apply bind_ok in H as (p & Ep & H). apply bind_ok in H as ([o' px] & E & H). injection H as <- <-.
    apply p_exec_xmoves in E. simpl in *. eapply xmoves_xsafe; [done| | |exact E].
    + intros ->. by eapply Hno.
    + intros b Hb. simpl in Hb. apply mem_addr_elem in Hb. by eapply signer_pos.
  - mon H. destruct (w_pools w !! _); [done|]. mon H. by apply xsafe_same.
  - mon H. destruct (w_pools w !! _); [done|]. mon H. apply xsafe_refl.
  - mon H. apply xsafe_refl.
  - mon H. by apply xsafe_same.
  - mon H. by apply xsafe_same.
  - mon H. apply xsafe_refl.
  - mon H. apply xsafe_refl.
  - mon H. by apply xsafe_same.
Qed.

(** calls of the pool that are not submits *)
Lemma p_exec_xsafe c self px po out px' : self < 0 -> p_exec c self px po = Ok (out, px') -> (forall f s t qs, po <> PSubmit f s t qs) ->
  xsafe self (px_x px) (px_x px').
Proof.
  intros Hs H Hn. assert (forall y, y = px_x px -> xsafe self (px_x px) y) as Hr by (intros y ->; apply xsafe_refl).
  destruct po; simpl in H; unfold on_pool, ret_z in H; mon H; simpl; try (by apply Hr); try (exfalso; eapply Hn; reflexivity); try (by apply xsafe_refl).
  - unfold p_gulp in E. mon E. simpl. unfold to_backstop in *. mon E0. by eapply gulp_pool_xsafe.
  - unfold p_claim in E. mon E. destruct (0 <? _); mon E; [|apply Hr; done]. simpl. apply xsafe_tok. by eapply transfer_from_tsafe.
Qed.

Lemma reachable_noallow w : reachable w -> noallow (x_tok (w_ext w)).
Proof.
  revert w. apply reach_inv'.
  - intros w (now & seq & t & o & lp & -> & _ & _ & [_ Ha] & _) k a s Hneg. simpl. destruct (tk_allow t !! (k, a, s)) as [[n l]|] eqn:E; [|done].
    apply Ha in E as [_ ?]. lia.
  - intros w o out w' Hr Hn H. unfold exec in H. 
    destruct o as [sg o|sg a o|sg ad sa orc ra mp|b|dt ds|orc|n|b t u|b r|].
    + apply assert_ok in H as [G H]. apply andb_prop in G as [G _]. apply bind_ok in H as ([o' x'] & E & H). injection H as <- <-.
      by destruct (x_exec_xsafe (-1) _ _ _ _ _ Hr ltac:(lia) G E) as [[? _] _].
    + apply assert_ok in H as [G H]. apply andb_prop in G as [G _]. apply bind_ok in H as (p & Ep & H). apply bind_ok in H as ([o' px] & E & H). injection H as <- <-.
      apply p_exec_xmoves in E. simpl in *.
      destruct (xmoves_xsafe (- Z.abs a - 1) (ctx w sg) a _ _ ltac:(lia) ltac:(lia) ltac:(intros b Hb; simpl in Hb; apply mem_addr_elem in Hb; by eapply signer_pos) E) as [Ht _].
      by apply Ht.
    + mon H. destruct (w_pools w !! _); [done|]. by mon H.
    + mon H. destruct (w_pools w !! _); [done|]. by mon H.
    + by mon H.
    + by mon H.
    + by mon H.
    + by mon H.
    + by mon H.
    + by mon H.
Qed.

(** ** The slack of a reserve *)
(** held + debt + burned debt - supplier claims - backstop credit, in billionths; for
    a token that is not a reserve only the balance counts *)
Definition slack (w : World) (a r : Addr) : Z :=
  worth_at (pool w a) r + 1000000000 * (held w r a + burnt a r (x_log (w_ext w))).

Lemma getz_empty r : getz (∅ : gmap Addr Z) r = 0.
Proof. unfold getz. by rewrite lookup_empty. Qed.
Lemma xsafe_slack w w' a r : noallow (x_tok (w_ext w)) -> xsafe a (w_ext w) (w_ext w') -> worth_at (pool w a) r <= worth_at (pool w' a) r -> slack w a r <= slack w' a r.
Proof.
  intros Hn [Ht Hb] Hw. destruct (Ht Hn) as [_ Hbal]. specialize (Hbal r). unfold slack, held. rewrite Hb. lia.
Qed.

Lemma moves_worth c self px po out px' r :
  good (px_p px) -> ty_pop po = true -> p_exec c self px po = Ok (out, px') -> (forall f s t qs, po <> PSubmit f s t qs) ->
  worth_at (px_p px) r <= worth_at (px_p px') r.
Proof.
  intros G Hty H Hn.
  assert (forall ls, ptrace (c_now c) (px_p px) ls (px_p px') -> sumz (dd r) ls = 0 -> sumz (db r) ls = 0 -> sumz (dc r) ls = 0 -> worth_at (px_p px) r <= worth_at (px_p px') r) as Hquiet.
  { intros ls T H1 H2 H3. pose proof (ptrace_worth _ _ _ _ r G T H1 H2) as Hw. rewrite H3 in Hw. destruct (decide _); lia. }
  destruct (p_exec_data _ _ _ _ _ _ G Hty H) as [(Hm & _)|[(b & -> & Hs)|(_ & _ & Hk & _)]].
  - destruct po; simpl in Hm; try discriminate; simpl in H; rewrite (gd_init _ G) in H; simpl in H.
    + exfalso. eapply Hn. reflexivity.
    + unfold on_pool in H. apply bind_ok in H as (p1 & E & H). injection H as <- <-.
      apply bad_debt_sim in E as (_ & _ & _ & T); [|done]. eapply Hquiet; [exact T| | |];
        rewrite ?sumz_cons; cbn [dd db dc]; by apply d_bd.
    + unfold ret_z in H. apply bind_ok in H as ([z px1] & E & H). injection H as <- <-.
      apply claim_sim in E as (_ & es & He & Hz & T & _); [|done|by apply forallb_nonneg].
      eapply Hquiet; [exact T| | |]; unfold claim_lbls; rewrite sumz_map; by apply sumz_zero.
    + apply bind_ok in H as ([a p1] & E & H). injection H as <- <-. simpl in Hty. apply in_u64_iff in Hty.
      apply create_liq_sim in E; [|done|lia]. cbv zeta in E. destruct E as (_ & _ & _ & _ & _ & _ & _ & _ & _ & ls & p2 & Ho & T & ->).
      pose proof (ptrace_app _ _ _ _ _ _ T (ptrace_one _ _ _ _ (pm_auct _ _ (<[(0, user) := a]> (ps_auct p2))))) as T'.
      eapply Hquiet; [exact T'| | |]; rewrite sumz_app, sumz_cons, sumz_nil; cbn [dd db dc];
        (rewrite sumz_zero; [done|]); intros l Hl; apply Ho in Hl as (id & n & ->); done.
    + apply bind_ok in H as ([a p1] & E & H). injection H as <- <-. apply create_bad_debt_auct in E as ->. simpl. done.
    + apply bind_ok in H as ([a p1] & E & H). injection H as <- <-. apply create_interest_auct in E as ->. simpl. done.
  - destruct Hs as (cfg' & _ & _ & _ & _ & _ & _ & _ & _ & _ & _ & Hcase). unfold worth_at.
    destruct Hcase as [(Hnone & _ & _ & ->)|(cfg & d & d' & Hc & Hd & _ & _ & _ & Hac & m & _ & ->)].
    + destruct (decide (b = r)) as [->|Hne]; [|by rewrite lookup_insert_ne]. rewrite lookup_insert.
      destruct (ps_rdata (px_p px) !! r) as [d|] eqn:Ed; [|done].
      destruct (proj2 (gd_dom _ G r) (ex_intro _ _ Ed)) as [? ?]. congruence.
    + destruct (decide (b = r)) as [->|Hne]; [|by rewrite lookup_insert_ne]. rewrite lookup_insert, Hd.
      pose proof (accrue_worth _ _ _ _ _ (good_rd _ _ _ G Hd) (cw_valid _ (gd_cfg _ G) _ _ Hc) (cw_rate _ (gd_cfg _ G)) Hac) as Hw. exact Hw.
  - unfold worth_at. by rewrite Hk.
Qed.

Lemma slack_step w o out w' a r : reachable w -> a < 0 -> exec w o = Ok (out, w') -> slack w a r <= slack w' a r.
Proof.
  intros Hr Ha H. pose proof (reachable_noallow _ Hr) as Hn.
  pose proof (exec_pool _ _ _ _ a H) as Hp. inversion Hp as [o1 out1 w1 E Hno|sg po out1 px w1 Hsg Hty Hpl Hex E Ex _|sg admin salt orc rate mp w1 Ea Enone _ _ E|t u w1 E|q w1 E]; subst.
  - apply xsafe_slack; [done|eapply exec_xsafe; [| | |exact H]; done|by rewrite E].
  - assert ((exists f s t qs, po = PSubmit f s t qs) \/ (forall f s t qs, po <> PSubmit f s t qs)) as [(f & s & t & qs & ->)|Hns].
    { destruct po; first [by right | left; by repeat eexists]. }
    + pose proof (submit_tx _ _ _ _ _ _ _ _ _ Hr H) as S. cbv zeta in S.
      destruct S as (G & _ & _ & _ & _ & N1 & N2 & N3 & _ & ls & x1 & ac & chk & t1 & t2 & pos & _ & _ & Hq & Ht1 & Ht2 & Hx & _).
      pose proof (areqs_phi _ _ _ _ _ _ _ r Hq (touch_good _ _ G) Ha N1) as Hphi. unfold phi in Hphi. cbn [as_p as_x as_ac no_actions ac_spender ac_pool] in Hphi.
      rewrite !getz_empty in Hphi. change (worth_at (touch (pool w a) f) r) with (worth_at (pool w a) r) in Hphi.
      unfold slack, held. rewrite Hx. change (x_tok (x1 <| x_tok := t2 |>)) with t2. change (x_log (x1 <| x_tok := t2 |>)) with (x_log x1).
      rewrite (transfer_all_spec _ _ _ _ _ _ Ht2), (transfer_all_spec _ _ _ _ _ _ Ht1). rewrite !Z.eqb_refl.
      rewrite (proj2 (Z.eqb_neq a s)), (proj2 (Z.eqb_neq a t)) by congruence. lia.
    + apply xsafe_slack; [done| |].
      * rewrite Ex. eapply (p_exec_xsafe _ _ (mkPX (pool w a) (w_ext w))); [done|exact Hex|done].
      * rewrite E. destruct (ps_init (pool w a)) eqn:Ei.
        -- eapply (moves_worth _ _ (mkPX (pool w a) (w_ext w))); [by apply reachable_good|done|exact Hex|done].
        -- pose proof Hex as H0. apply p_exec_cfg in H0 as [Hx0 H0]. cbv zeta in *. simpl in *.
           destruct po; try congruence. apply initialize_spec in H0 as (_ & _ & _ & _ & Hp'). unfold worth_at. by rewrite Hp'.
  - assert (pool w (dep_addr admin salt) = fresh_pool) as Ef by (unfold pool; by rewrite Enone).
    apply xsafe_slack; [done|eapply exec_xsafe; [| | |exact H]; done|]. rewrite Ef. apply initialize_spec in E as (_ & _ & _ & _ & Hp'). unfold worth_at. by rewrite Hp'.
  - apply xsafe_slack; [done|eapply exec_xsafe; [| | |exact H]; done|by rewrite E].
  - apply xsafe_slack; [done|eapply exec_xsafe; [| | |exact H]; done|by rewrite E].
Qed.

(** ** C03: solvency up to burned bad debt *)
(** tokens of debt burned by bad-debt auction fills of pool [a] in reserve [r], valued at
    the debt rate of the fill and rounded up: the sum over the burn events *)
Definition burned (w : World) (a r : Addr) : Z := burnt a r (x_log (w_ext w)).
(** supplier claims plus backstop credit, minus tokens held, minus outstanding debt
    (rounded up to whole tokens, as a repayment of all of it would be), in billionths *)
Definition shortfall (w : World) (a r : Addr) : Z :=
  match reserve w a r with
  | Some d => rd_b_supply d * rd_b_rate d + 1000000000 * rd_credit d
              - 1000000000 * (held w r a + cdiv (rd_d_supply d * rd_d_rate d) 1000000000)
  | None => - 1000000000 * held w r a
  end.
Lemma slack_shortfall w a r : slack w a r = 1000000000 * burned w a r - shortfall w a r.
Proof.
  unfold slack, shortfall, burned, worth_at, reserve. destruct (ps_rdata (pool w a) !! r) as [d|]; [|lia].
  unfold worth, debt, claims9. lia.
Qed.

Lemma reserve_neg w a r d : reachable w -> reserve w a r = Some d -> a < 0.
Proof.
  intros Hr Hd. unfold reserve, pool in Hd. destruct (w_pools w !! a) as [p|] eqn:E; [by eapply pools_neg|]. simpl in Hd. done.
Qed.

(** what suppliers and the backstop can claim is covered by tokens held and debt, up to
    the debt that was burned *)
Theorem C03_solvency w a r d :
  reachable w -> reserve w a r = Some d ->
  rd_b_supply d * rd_b_rate d + 1000000000 * rd_credit d <=
  1000000000 * (held w r a + cdiv (rd_d_supply d * rd_d_rate d) 1000000000 + burned w a r).
Proof.
  intros Hr Hd. pose proof (reserve_neg _ _ _ _ Hr Hd) as Ha.
  assert (0 <= slack w a r) as Hs.
  { clear Hd. revert w Hr. apply reach_inv'.
    - intros w Hi. pose proof (reachable_tok_nonneg _ (reachable_initial _ Hi) r a) as Hb. destruct Hi as (now & seq & t & o & lp & -> & _).
      unfold slack, held, worth_at, pool in *. simpl in *. unfold burnt. simpl. rewrite lookup_empty. simpl. rewrite ?lookup_empty. lia.
    - intros w o out w' Hr IH H. pose proof (slack_step _ _ _ _ _ r Hr Ha H). lia. }
  rewrite slack_shortfall in Hs. unfold shortfall in Hs. rewrite Hd in Hs. lia.
Qed.

(** does the transaction fill a bad-debt auction of pool [a]? *)
Definition fills_bad_debt (a : Addr) (o : Op) : bool :=
  match o with
  | OPool _ b (PSubmit _ _ _ qs) => (b =? a) && existsb (fun q => rq_type q =? 7) qs
  | _ => false
  end.

(** no other call increases the shortfall *)
Theorem C03_no_other_shortfall w a r o out w' :
  reachable w -> a < 0 -> exec w o = Ok (out, w') -> fills_bad_debt a o = false ->
  shortfall w' a r <= shortfall w a r /\ burned w' a r = burned w a r.
Proof.
  intros Hr Ha H Hf. pose proof (slack_step _ _ _ _ _ r Hr Ha H) as Hs. rewrite !slack_shortfall in Hs.
  assert (burned w' a r = burned w a r) as Hb; [|lia]. clear Hs. unfold burned.
  assert ((exists sg f s t qs, o = OPool sg a (PSubmit f s t qs)) \/ ((exists sg po, o = OPool sg a po) /\ forall sg f s t qs, o <> OPool sg a (PSubmit f s t qs)) \/ forall sg po, o <> OPool sg a po) as [(sg & f & s & t & qs & ->)|[((sg & po & ->) & Hns)|Hno]].
  { destruct o as [|sg b po| | | | | | | |]; try (by right; right). destruct (decide (b = a)) as [->|Hne]; [|right; right; intros ? ? [=]; congruence].
    destruct po; first [left; by repeat eexists | right; left; split; [by repeat eexists|intros ? ? ? ? ? [=]] ]. }
  - pose proof (submit_tx _ _ _ _ _ _ _ _ _ Hr H) as S. cbv zeta in S.
    destruct S as (G & _ & _ & _ & _ & N1 & N2 & N3 & _ & ls & x1 & ac & chk & t1 & t2 & pos & _ & _ & Hq & Ht1 & Ht2 & Hx & _).
    rewrite Hx. change (x_log (x1 <| x_tok := t2 |>)) with (x_log x1). simpl in Hf. rewrite Z.eqb_refl in Hf. simpl in Hf.
    assert (forall s s' q ls, areq (ctx w sg) a f q s ls s' -> rq_type q <> 7 -> x_log (as_x s') = x_log (as_x s)) as Hone.
    { intros s0 s1 q l0 Hareq Hne. destruct Hareq; simpl; try done. 
      match goal with E : b_donate _ _ _ _ _ = Ok _ |- _ => by rewrite (donate_log _ _ _ _ _ _ E) end. }
    assert (x_log x1 = x_log (w_ext w)) as ->; [|done].
    change (x_log (as_x (mkAS (pool w' a) x1 ac chk)) = x_log (as_x (mkAS (touch (pool w a) f) (w_ext w) no_actions false))).
    revert Hf Hq. generalize (mkAS (pool w' a) x1 ac chk), (mkAS (touch (pool w a) f) (w_ext w) no_actions false). clear -Hone.
    intros s2 s0 Hf Hq. induction Hq as [s|s q qs l1 s1 l2 s2 Ha _ Hq Hqs IH]; [done|]. simpl in Hf. apply orb_false_iff in Hf as [Hf1 Hf2].
    rewrite (IH Hf2). eapply Hone; [exact Hq|]. lia.
  - apply exec_opool in H as (_ & _ & _ & px & H & _ & Hx & _). rewrite Hx.
    assert (xsafe a (w_ext w) (px_x px)) as [_ Hb].
    { eapply (p_exec_xsafe _ _ (mkPX (pool w a) (w_ext w))); [done|exact H|]. intros f s t qs ->. eapply Hns. reflexivity. }
    apply Hb.
  - destruct (exec_xsafe a _ _ _ _ Hr Ha Hno H) as [_ Hb]. apply Hb.
Qed.

(** a bad-debt fill increases it by at most the value of the debt it burns *)
Theorem C03_burn_bounds_shortfall w a r o out w' :
  reachable w -> a < 0 -> exec w o = Ok (out, w') ->
  shortfall w' a r - shortfall w a r <= 1000000000 * (burned w' a r - burned w a r).
Proof. intros Hr Ha H. pose proof (slack_step _ _ _ _ _ r Hr Ha H) as Hs. rewrite !slack_shortfall in Hs. lia. Qed.

(** the burn events are exact: a bad-debt fill reports precisely the dTokens by which the
    reserve's debt shrinks, at the rate after accrual *)
Theorem C03_burn_exact w sg a filler spender to u n out w' r d :
  reachable w -> exec w (OPool sg a (PSubmit filler spender to [mkReq 7 u n])) = Ok (out, w') -> reserve w a r = Some d ->
  exists d', reserve w' a r = Some d' /\ rd_b_supply d' = rd_b_supply d /\
    burned w' a r - burned w a r = cdiv ((rd_d_supply d - rd_d_supply d') * rd_d_rate d') 1000000000.
Proof.
  intros Hr H Hd.
  apply submit_tx in H as (G & G' & Hcfg & _ & _ & _ & Hsa & Hta & _ & ls & x1 & ac & chk & t1 & t2 & pos & _ & _ & Hqs & Ht1 & Ht2 & Hx & _); [|done].
  unfold burned. rewrite Hx. change (x_log (x1 <| x_tok := t2 |>)) with (x_log x1). unfold reserve in *.
  inversion Hqs as [|? ? ? l1 s1 l2 ? Hamt Hal Hq Hqs']; subst. inversion Hqs'; subst. rewrite app_nil_r in *.
  inversion Hq as [? ? ? ? ? ? ? ? ? ? ? ? ? Ht'|? ? ? ? ? ? ? ? Ht'|L x ac0 chk0 au tf rem L1 L2 btok lot y1 y2 m Hty Hne Hnb Hau Hs T1 T2 Hbt Hlot Hdr Hm|? ? ? ? ? ? ? ? ? ? ? ? Ht'|? ? ? ? ? Ht']; subst;
    try (simpl in Ht'; lia).
  assert (ps_rdata (after_fill L2 1 u rem) = ps_rdata L2) as Eaf by (by destruct rem).
  rewrite Eaf in *.
  pose proof (touch_good _ filler G) as G0. pose proof (ptrace_good _ _ _ _ G0 T1) as G1.
  destruct (ptrace_res _ _ _ _ r d G0 T1 Hd) as (e1 & d1 & A1 & _ & _ & A2 & A3 & _ & _ & A4 & A5 & _).
  destruct (ptrace_res _ _ _ _ r d1 G1 T2 A1) as (e2 & d2 & B1 & _ & _ & _ & _ & _ & _ & B4 & B5 & _).
  exists d2. split; [done|].
  rewrite !sumz_cons, !sumz_app in A4, A5. cbn [dd db] in A4, A5.
  destruct (d_rm r (ps_backstop (touch (pool w a) filler)) ∅ (au_bid tf)) as (R1 & R2 & _), (d_add r filler ∅ (au_bid tf)) as (Q1 & Q2 & _).
  destruct (d_rm r (ps_backstop (touch (pool w a) filler)) ∅ m) as (M1 & M2 & _).
  rewrite R1, Q1 in A4. rewrite R2, Q2 in A5. rewrite M1 in B4. rewrite M2 in B5. rewrite !getz_empty in *.
  split; [lia|]. replace (rd_d_supply d - rd_d_supply d2) with (getz m r) by lia.
  apply draw_log in Hdr as Hlog.
  destruct Hm as [(-> & -> & _)|(_ & _ & _ & ->)].
  - rewrite Hlog, getz_empty. rewrite Z.sub_diag. done.
  - rewrite (burnt_fold a r (fun b => match ps_rdata L2 !! b with Some d => rd_d_rate d | None => 0 end)), Hlog.
    rewrite (sum_entries m r (fun v => cdiv (v * match ps_rdata L2 !! r with Some d => rd_d_rate d | None => 0 end) 1000000000)).
    rewrite B1. unfold getz. destruct (m !! r); [simpl; lia|]. change (cdiv (default 0 None * rd_d_rate d2) 1000000000) with 0. lia.
Qed.

(** non-vacuity: the loan scenario, and the scenario in which bad debt is burned *)
Definition ops_burn : list Op := ops_leave ++ [submit_op carol [(7, bs_addr, 30)]].
Example C03_loan_solvent : shortfall (run sc0 ops_loan) P1 BBB = 0 /\ burned (run sc0 ops_loan) P1 BBB = 0.
Proof. by vm_compute. Qed.
Example C03_burn_happens : (0 <? burned (run sc0 ops_burn) P1 BBB) && (0 <? shortfall (run sc0 ops_burn) P1 BBB) && (shortfall (run sc0 ops_leave) P1 BBB <=? 0) = true.
Proof. by vm_compute. Qed.
Example C03_reachable : reachable (run sc0 ops_burn).
Proof. apply sc_reachable. Qed.
