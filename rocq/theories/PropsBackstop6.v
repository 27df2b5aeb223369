(** * Exact acceptance of the backstop's user calls (C63) *)
From Verif Require Import Base Types Token Emitter Factory Backstop PoolReserve PoolUser PoolHealth
  PoolAuction PoolSubmit PoolEmis PoolAdmin World Facts XMove Spec FrameFacts PoolFrame PoolCfg BackMoves BackInv BackEmis
  PropsEmitter PropsAdmin PropsBackstop PropsBackstop2 PropsBackstop3 PropsBackstop4 PropsBackstop5 PoolInv PoolReach PoolTx PropsAdmin2.

(** ** Specification *)

(** all shares of [p] are queued for withdrawal while the depositors of [p] have emissions to receive: the
    emission index would be divided by zero shares *)
Definition stuck (w : World) (p : Addr) : Prop :=
  exists cfg d, bs_ecfg (x_bs (w_ext w)) !! p = Some cfg /\ bs_edata (x_bs (w_ext w)) !! p = Some d /\
    emission_due w p cfg d /\ unqueued w p = 0.
(** the emission arithmetic of [p] and [u] stays within 128-bit integers *)
Definition emis_fit (w : World) (p u : Addr) : Prop :=
  forall cfg d, bs_ecfg (x_bs (w_ext w)) !! p = Some cfg -> bs_edata (x_bs (w_ext w)) !! p = Some d -> emissions_fit w p u cfg d.
(** the shares minted for a deposit and the tokens paid for shares, at the current price, rounded down *)
Definition shares_for (w : World) (p : Addr) (n : Z) : Z :=
  if pb_shares (pool_bal w p) =? 0 then n else n * pb_shares (pool_bal w p) / pb_tokens (pool_bal w p).
Definition tokens_for (w : World) (p : Addr) (n : Z) : Z :=
  if pb_shares (pool_bal w p) =? 0 then n else n * pb_tokens (pool_bal w p) / pb_shares (pool_bal w p).
(** [p] was deployed by the pool factory the backstop was initialized with *)
Definition registered (w : World) (p : Addr) : Prop :=
  bs_factory (x_bs (w_ext w)) = fac_addr /\ p ∈ fa_deployed (x_fac (w_ext w)).

(** ** Lemmas *)
Lemma unqueued_nonneg w p : reachable w -> 0 <= unqueued w p.
Proof. intros Hr. pose proof (user_queued_le w p 0 Hr). unfold unqueued. lia. Qed.
Lemma not_stuck_updatable w p u : reachable w -> emis_fit w p u -> ~ stuck w p -> updatable w p u.
Proof.
  intros Hr Hf Hs cfg d Hc Hd. split; [|by apply Hf]. intros Hdue. pose proof (unqueued_nonneg w p Hr).
  destruct (decide (unqueued w p = 0)) as [E|E]; [|lia]. destruct Hs. exists cfg, d. done.
Qed.
Lemma div_floor_zero a r : div_floor a 0 = Ok r -> False.
Proof. unfold div_floor. simpl. discriminate. Qed.
(** a stuck pool cannot be updated *)
Lemma stuck_update w sg p cfg : stuck w p -> bs_ecfg (x_bs (w_ext w)) !! p = Some cfg ->
  forall r, b_update_data (ctx w sg) (w_ext w) p (pool_bal w p) cfg = Ok r -> False.
Proof.
  intros (cfg' & d & Hc & Hd & (D1 & D2 & D3 & D4) & Hu) Hc' r H. rewrite Hc in Hc'. injection Hc' as ->. unfold b_update_data in H. rewrite Hd in H.
  cbn [unwrap unwrap_or bind] in H. change (c_now (ctx w sg)) with (w_now w) in H.
  rewrite (proj2 (Z.leb_gt _ _)), (proj2 (Z.eqb_neq (w_now w) _)), (proj2 (Z.eqb_neq (ec_eps cfg) _)), (proj2 (Z.eqb_neq (pb_shares _) _)) in H by lia. cbn [orb] in H.
  unfold unqueued in Hu. rewrite Hu in H. apply bind_iff in H as (q & Hq & H). apply i128_ok in Hq as [-> _]. apply bind_iff in H as (? & _ & H).
  apply bind_iff in H as (dt & _ & H). apply bind_iff in H as (tk & _ & H). apply bind_iff in H as (ad & Ha & _). unfold fdiv_floor in Ha.
  apply bind_iff in Ha as (z & _ & Ha). by apply div_floor_zero in Ha.
Qed.
Lemma stuck_emissions w sg p pb u ub cl r : stuck w p -> pb = pool_bal w p -> b_emissions (ctx w sg) (w_ext w) p pb u ub cl = Ok r -> False.
Proof.
  intros Hs -> H. unfold b_emissions in H. pose proof Hs as (cfg & d & Hc & _). rewrite Hc in H. apply bind_iff in H as (y & H & _). by eapply stuck_update.
Qed.
Lemma stuck_dec w p : stuck w p \/ ~ stuck w p.
Proof.
  unfold stuck. destruct (bs_ecfg (x_bs (w_ext w)) !! p) as [cfg|] eqn:Ec; [|right; by intros (? & ? & ? & _)].
  destruct (bs_edata (x_bs (w_ext w)) !! p) as [d|] eqn:Ed; [|right; by intros (? & ? & _ & ? & _)].
  destruct (decide (emission_due w p cfg d /\ unqueued w p = 0)) as [H|H]; [left; by exists cfg, d|]. right. intros (cfg' & d' & [= <-] & [= <-] & H'). done.
Qed.
Lemma emissions_iff w sg p u : reachable w -> emis_fit w p u ->
  (exists r, b_emissions (ctx w sg) (w_ext w) p (pool_bal w p) u (user_bal w p u) false = Ok r) <-> ~ stuck w p.
Proof.
  intros Hr Hf. split.
  - intros [r H] Hs. by eapply stuck_emissions.
  - intros Hs. destruct (emissions_succeed w sg p u Hr (not_stuck_updatable _ _ _ Hr Hf Hs)) as [x H]. eauto.
Qed.

(** ** C63 *)
Theorem C63_queue : forall w sg p u n q, reachable w -> accounts sg -> in_i128 n = true -> emis_fit w p u -> w_now w + 1814400 <= u64_max ->
  (exists w', exec w (OExt sg (BQueue u p n)) = Ok (OutQ4W q, w')) <->
  u ∈ sg /\ 0 <= n <= ub_shares (user_bal w p u) /\ (length (ub_q4w (user_bal w p u)) < 21)%nat /\ ~ stuck w p /\ q = mkQ4W n (w_now w + 21 * 86400).
Proof.
  intros w sg p u n q Hr Hs Hn Hf Ht. split.
  - intros [w' H]. apply oext_iff in H as (x & H & _); [|done..]. cbn [x_exec] in H. apply bind_iff in H as ([q0 x0] & H & [= <- <-]).
    unfold b_queue in H. apply bind_iff in H as (? & Ha & H). apply auth_iff in Ha. apply bind_iff in H as (? & Hn0 & H).
    unfold b_nonneg in Hn0. destruct (Z.ltb_spec n 0) as [|Hn1]; [discriminate|]. fold (pool_bal w p) (user_bal w p u) in H.
    apply bind_iff in H as (r & He & H). assert (~ stuck w p) as Hst by (intros Hst; by eapply stuck_emissions). destruct r as [rz rx].
    apply bind_iff in H as (ub & Hub & H). unfold ub_queue in Hub. apply assert_iff in Hub as [H1 Hub]. apply assert_iff in Hub as [H2 Hub].
    rewrite negb_true_iff in H1, H2. apply Z.ltb_ge in H1. apply Z.leb_gt in H2. unfold MAX_Q4W_SIZE in H2.
    apply bind_iff in Hub as (s & Es & Hub). apply bind_iff in Hub as (ee & Ee & [= <-]). apply u64_ok in Ee as [-> _].
    apply bind_iff in H as (pb & _ & H). apply bind_iff in H as (q1 & Hq1 & [= <- <-]). cbn [ub_q4w] in Hq1. rewrite last_snoc in Hq1. injection Hq1 as <-.
    split; [done|]. split; [lia|]. split; [lia|]. split; done.
  - intros (Ha & Hb & Hl & Hst & ->). apply C54_queue_possible; try done; [by apply accounts_ok|by apply not_stuck_updatable].
Qed.
Theorem C63_dequeue : forall w sg p u n, reachable w -> accounts sg -> in_i128 n = true -> emis_fit w p u ->
  succeeds w (OExt sg (BDequeue u p n)) <-> u ∈ sg /\ 0 <= n <= queued_of w p u /\ ~ stuck w p.
Proof.
  intros w sg p u n Hr Hs Hn Hf. split.
  - intros (out & w' & H). apply oext_iff in H as (x & H & _); [|done..]. cbn [x_exec] in H. unfold ret_unit in H. apply bind_iff in H as (x0 & H & _).
    unfold b_dequeue in H. apply bind_iff in H as (? & Ha & H). apply auth_iff in Ha. apply bind_iff in H as (? & Hn0 & H).
    unfold b_nonneg in Hn0. destruct (Z.ltb_spec n 0) as [|Hn1]; [discriminate|]. fold (pool_bal w p) (user_bal w p u) in H.
    apply bind_iff in H as (r & He & H). assert (~ stuck w p) as Hst by (intros Hst; by eapply stuck_emissions). destruct r as [rz rx].
    apply bind_iff in H as (ub & Hub & H). pose proof (reachable_binv _ Hr) as Hb. destruct (bi_get _ _ p u Hb) as (_ & B & _ & S).
    eapply ub_dequeue_spec in Hub as (_ & Ht & _); [|done|exact B]. fold (user_bal w p u) in B, S. destruct (taken_oldest_facts _ _ _ _ Ht B S) as (E & B' & _).
    pose proof (queued_nonneg _ _ B') as Hq. unfold queued in Hq. split; [done|]. split; [|done]. split; [done|]. unfold queued_of. lia.
  - intros (Ha & Hb & Hst). apply C45_dequeue_possible; try done; [by apply accounts_ok|by apply not_stuck_updatable].
Qed.
Theorem C63_withdraw : forall w sg p u n m, reachable w -> accounts sg -> in_i128 n = true -> bs_init (x_bs (w_ext w)) = true ->
  bs_token (x_bs (w_ext w)) <> bs_blnd (x_bs (w_ext w)) ->
  (* 128-bit integers suffice *)
  n * pb_tokens (pool_bal w p) <= i128_max ->
  balance (x_tok (w_ext w)) (bs_token (x_bs (w_ext w))) u + tokens_for w p n <= i128_max ->
  (exists w', exec w (OExt sg (BWithdraw u p n)) = Ok (OutZ m, w')) <->
  u ∈ sg /\ 0 <= n <= expired (w_now w) (ub_q4w (user_bal w p u)) /\ m = tokens_for w p n /\ 0 < m.
Proof.
  intros w sg p u n m Hr Hs Hn Hi Hne Hf1 Hf2. pose proof (reachable_binv _ Hr) as Hb. destruct (binv_pool _ _ p Hb) as [Hp1 Hp2]. fold (pool_bal w p) in Hp1, Hp2.
  assert (forall w' z, exec w (OExt sg (BWithdraw u p n)) = Ok (OutZ z, w') -> u ∈ sg /\ 0 <= n /\ z = tokens_for w p n /\ 0 < z) as Hout.
  { intros w' z H. apply oext_iff in H as (x & H & _); [|done..]. cbn [x_exec] in H. unfold ret_z in H. apply bind_iff in H as ([r x0] & H & [= <- <-]).
    unfold b_withdraw in H. apply bind_iff in H as (? & Ha & H). apply auth_iff in Ha. apply bind_iff in H as (? & Hn0 & H).
    unfold b_nonneg in Hn0. destruct (Z.ltb_spec n 0) as [|Hn1]; [discriminate|]. fold (pool_bal w p) (user_bal w p u) in H.
    apply bind_iff in H as (ub & _ & H). apply bind_iff in H as (ret & Hret & H). apply assert_iff in H as [Hz H]. apply bind_iff in H as (pb & _ & H).
    apply assert_iff in H as [_ H]. apply bind_iff in H as (t & _ & [= <- <-]). rewrite negb_true_iff, Z.eqb_neq in Hz. split; [done|]. split; [done|].
    assert (ret = tokens_for w p n) as ->.
    { unfold to_tokens in Hret. unfold tokens_for. destruct (Z.eqb_spec (pb_shares (pool_bal w p)) 0); [by injection Hret as <-|].
      rewrite fmul_floor_fits in Hret by nia. by injection Hret as <-. }
    split; [done|]. assert (0 <= tokens_for w p n); [|lia]. unfold tokens_for. destruct (Z.eqb_spec (pb_shares (pool_bal w p)) 0); [done|]. apply Z.div_pos; nia. }
  split.
  - intros [w' H]. pose proof (Hout _ _ H) as (Ha & Hn1 & Hm). pose proof (C38_withdraw_takes_only_expired _ _ _ _ _ _ _ Hr H) as [He _]. done.
  - intros (Ha & Hn1 & -> & Hm). assert (0 < n) as Hn0. { destruct (decide (n = 0)) as [->|]; [|lia]. unfold tokens_for in Hm. destruct (_ =? 0); [lia|]. rewrite Z.mul_0_l, Zdiv_0_l in Hm. lia. }
    assert (0 < pb_shares (pool_bal w p)) as Hsh.
    { pose proof (user_queued_le w p u Hr) as (U1 & U2 & U3 & U4 & U5). assert (expired (w_now w) (ub_q4w (user_bal w p u)) <= queued_of w p u); [|lia].
      unfold expired, queued_of. pose proof (bi_amounts _ _ p u Hb) as Hq'. fold (user_bal w p u) in Hq'. clear - Hq'. induction Hq' as [|e q He _ IH]; [done|]. rewrite !sumz_cons. destruct (q_exp e <=? w_now w); lia. }
    unfold tokens_for in *. rewrite (proj2 (Z.eqb_neq _ _)) in * by lia.
    destruct (C53_withdraw_possible w sg p u n Hr Ha (proj1 (accounts_ok sg) Hs) Hi Hne ltac:(lia) Hm Hf1 Hf2) as (out & w' & H).
    assert (exists z, out = OutZ z) as [z ->]. { apply oext_iff in H as (x & H & _); [|done..]. cbn [x_exec] in H. unfold ret_z in H. apply bind_iff in H as ([r x0] & H & [= <- <-]). eauto. }
    pose proof (Hout _ _ H) as (_ & _ & -> & _). eauto.
Qed.
Theorem C63_deposit : forall w sg p u n m, reachable w -> accounts sg -> in_i128 n = true -> bs_init (x_bs (w_ext w)) = true -> emis_fit w p u ->
  (* 128-bit integers suffice *)
  n * pb_shares (pool_bal w p) <= i128_max -> pb_tokens (pool_bal w p) + n <= i128_max -> pb_shares (pool_bal w p) + shares_for w p n <= i128_max ->
  lp_held w + n <= i128_max ->
  (exists w', exec w (OExt sg (BDeposit u p n)) = Ok (OutZ m, w')) <->
  u ∈ sg /\ 0 <= n <= balance (x_tok (w_ext w)) (bs_token (x_bs (w_ext w))) u /\ u <> p /\
  (pb_shares (pool_bal w p) = 0 -> registered w p) /\ ~ stuck w p /\ m = shares_for w p n /\ 0 < m.
Proof.
  intros w sg p u n m Hr Hs Hn Hi Hf F1 F2 F3 F4. pose proof (reachable_binv _ Hr) as Hb. destruct (binv_pool _ _ p Hb) as [Hp1 Hp2]. fold (pool_bal w p) in Hp1, Hp2.
  pose proof (user_queued_le w p u Hr) as (U1 & U2 & U3 & U4 & U5). pose proof (reachable_fit _ Hr p) as [Hfit _]. fold (pool_bal w p) in Hfit.
  assert (0 <= n -> 0 <= shares_for w p n) as Hsp. { intros. unfold shares_for. destruct (_ =? 0); [done|]. destruct (decide (pb_tokens (pool_bal w p) = 0)) as [-> |]; [by rewrite Zdiv_0_r|]. apply Z.div_pos; nia. }
  assert (0 <= n -> forall r, to_shares (pool_bal w p) n = Ok r -> r = shares_for w p n) as Hts.
  { intros Hn0 r H. unfold to_shares in H. unfold shares_for. destruct (Z.eqb_spec (pb_shares (pool_bal w p)) 0); [by injection H as <-|].
    destruct (decide (pb_tokens (pool_bal w p) = 0)) as [E|E].
    - rewrite E in H. unfold fmul_floor in H. apply bind_iff in H as (? & _ & H). by apply div_floor_zero in H.
    - rewrite fmul_floor_fits in H by nia. by injection H as <-. }
  split.
  - intros [w' H]. apply oext_iff in H as (x & H & _); [|done..]. cbn [x_exec] in H. unfold ret_z in H. apply bind_iff in H as ([r x0] & H & [= <- <-]).
    unfold b_deposit in H. apply bind_iff in H as (? & Ha & H). apply auth_iff in Ha. apply bind_iff in H as (? & Hn0 & H).
    unfold b_nonneg in Hn0. destruct (Z.ltb_spec n 0) as [|Hn1]; [discriminate|]. apply assert_iff in H as [Hne H]. apply assert_iff in H as [_ H].
    fold (pool_bal w p) (user_bal w p u) in H. apply bind_iff in H as (? & Hreg & H).
    apply bind_iff in H as (y & He & H). assert (~ stuck w p) as Hst by (intros Hst; by eapply stuck_emissions). destruct y as [yz xx].
    apply bind_iff in H as (t & Ht & H). apply bind_iff in H as (k & Hk & H). apply assert_iff in H as [Hz H]. apply bind_iff in H as (pb & _ & H). apply bind_iff in H as (ub & _ & [= <- <-]).
    rewrite negb_true_iff, Z.eqb_neq in Hz. apply (Hts Hn1) in Hk as ->. rewrite negb_true_iff, orb_false_iff, !Z.eqb_neq in Hne.
    split; [done|]. split.
    { split; [done|]. unfold transfer in Ht. apply bind_iff in Ht as (? & _ & Ht). unfold tok_move in Ht. apply assert_iff in Ht as [_ Ht]. apply assert_iff in Ht as [Hle _]. apply Z.leb_le in Hle.
      pose proof (emis_frame_b _ _ _ _ _ _ _ _ _ He) as Hse. assert (x_tok xx = x_tok (w_ext w) /\ bs_token (x_bs xx) = bs_token (x_bs (w_ext w))) as [E1 E2] by (destruct Hse as (? & ? & ->); done). rewrite E1, E2 in Hle. done. }
    split; [tauto|]. split.
    { intros E. unfold require_pool in Hreg. rewrite E, Z.eqb_refl in Hreg. apply assert_iff in Hreg as [Hfa Hreg]. apply Z.eqb_eq in Hfa. split; [done|].
      unfold fa_is_pool in Hreg. destruct (bool_decide _) eqn:Hd; [|discriminate]. by apply bool_decide_eq_true in Hd. }
    split; [done|]. split; [done|]. specialize (Hsp Hn1). lia.
  - intros (Ha & Hn1 & Hne & Hreg & Hst & -> & Hm). destruct (emissions_succeed w sg p u Hr (not_stuck_updatable _ _ _ Hr Hf Hst)) as [x1 He].
    pose proof (emis_frame_b _ _ _ _ _ _ _ _ _ He) as Hse. assert (x_tok x1 = x_tok (w_ext w) /\ bs_token (x_bs x1) = bs_token (x_bs (w_ext w))) as [E1 E2] by (destruct Hse as (? & ? & ->); done).
    assert (3 < u) as Hu by (eapply Forall_forall in Hs; [|exact Ha]; done).
    setoid_rewrite oext_iff; [|done..]. cbn [x_exec]. unfold b_deposit. rewrite (auth_of _ _ _ Ha). cbn [bind]. unfold b_nonneg. rewrite (proj2 (Z.ltb_ge n 0)) by lia. cbn [bind].
    rewrite (proj2 (Z.eqb_neq u p)) by done. rewrite (proj2 (Z.eqb_neq u bs_addr)) by (unfold bs_addr; lia). cbn [negb orb]. rewrite Hi. fold (pool_bal w p) (user_bal w p u).
    assert (require_pool (w_ext w) p (pb_shares (pool_bal w p)) = Ok tt) as ->.
    { unfold require_pool. destruct (Z.eqb_spec (pb_shares (pool_bal w p)) 0) as [E|]; [|done]. destruct (Hreg E) as [-> Hd]. rewrite Z.eqb_refl. unfold fa_is_pool. by rewrite bool_decide_eq_true_2. }
    cbn [bind]. rewrite He. cbn [bind]. rewrite E1, E2. unfold transfer. rewrite (auth_of _ _ _ Ha). cbn [bind]. unfold tok_move.
    rewrite (proj2 (Z.leb_le 0 n)) by lia. rewrite (proj2 (Z.leb_le n _)) by lia. rewrite balance_set_balance.
    pose proof (reachable_tok_nonneg w Hr (bs_token (x_bs (w_ext w))) bs_addr) as Hbn. unfold lp_held in F4.
    rewrite bool_decide_eq_false_2 by (unfold bs_addr; intros [_ ?]; lia). rewrite i128_fits by (unfold i128_min; lia). cbn [bind].
    assert (to_shares (pool_bal w p) n = Ok (shares_for w p n)) as ->.
    { unfold to_shares, shares_for in *. destruct (Z.eqb_spec (pb_shares (pool_bal w p)) 0); [done|].
      destruct (decide (pb_tokens (pool_bal w p) = 0)) as [E|E]; [rewrite E, Zdiv_0_r in Hm; lia|]. apply fmul_floor_fits; nia. }
    cbn [bind]. rewrite (proj2 (Z.eqb_neq (shares_for w p n) 0)) by lia. cbn [negb].
    unfold pb_deposit. rewrite !i128_fits by (unfold i128_min; lia). cbn [bind]. unfold ub_add. rewrite i128_fits by (unfold i128_min; lia). cbn [bind]. eauto.
Qed.
