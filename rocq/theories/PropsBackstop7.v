(** * A pool whose shares are all queued blocks the distribution of emissions (C63) *)
From Verif Require Import Base Types Token Emitter Factory Backstop PoolReserve PoolUser PoolHealth
  PoolAuction PoolSubmit PoolEmis PoolAdmin World Facts XMove Spec FrameFacts PoolFrame PoolCfg BackMoves BackInv BackEmis
  PropsEmitter PropsAdmin PropsBackstop PropsBackstop2 PropsBackstop3 PropsBackstop4 PropsBackstop5 PoolInv PoolReach PoolTx PropsAdmin2 PropsBackstop6.

(** ** Everything that decides whether [p] is stuck *)
Definition frozen (p : Addr) (x x' : Ext) : Prop :=
  bs_ecfg (x_bs x') !! p = bs_ecfg (x_bs x) !! p /\ bs_edata (x_bs x') !! p = bs_edata (x_bs x) !! p /\
  pb_shares (get_pb x' p) = pb_shares (get_pb x p) /\ pb_q4w (get_pb x' p) = pb_q4w (get_pb x p).
Definition stuckx (now : Z) (x : Ext) (p : Addr) : Prop :=
  exists cfg d, bs_ecfg (x_bs x) !! p = Some cfg /\ bs_edata (x_bs x) !! p = Some d /\
    ed_last d < ec_exp cfg /\ ed_last d < now /\ ec_eps cfg <> 0 /\ pb_shares (get_pb x p) <> 0 /\ pb_shares (get_pb x p) - pb_q4w (get_pb x p) = 0.
Lemma stuck_x w p : stuck w p <-> stuckx (w_now w) (w_ext w) p.
Proof. unfold stuck, stuckx, emission_due, unqueued, pool_bal. naive_solver. Qed.
Lemma frozen_refl p x : frozen p x x. Proof. done. Qed.
Lemma frozen_trans p x y z : frozen p x y -> frozen p y z -> frozen p x z.
Proof. intros (A1 & A2 & A3 & A4) (B1 & B2 & B3 & B4). repeat split; congruence. Qed.
Lemma frozen_stuck p now now' x x' : frozen p x x' -> now <= now' -> stuckx now x p -> stuckx now' x' p.
Proof. intros (A1 & A2 & A3 & A4) Hn (cfg & d & B). exists cfg, d. rewrite A1, A2, A3, A4. intuition lia. Qed.
Lemma frozen_same p x x' : bs_ecfg (x_bs x') = bs_ecfg (x_bs x) -> bs_edata (x_bs x') = bs_edata (x_bs x) -> bs_pool (x_bs x') = bs_pool (x_bs x) -> frozen p x x'.
Proof. intros H1 H2 H3. unfold frozen. by rewrite H1, H2, (get_pb_same _ _ p H3). Qed.

Lemma stuckx_update c x p cfg r : stuckx (c_now c) x p -> b_update_data c x p (get_pb x p) cfg = Ok r -> bs_ecfg (x_bs x) !! p = Some cfg -> False.
Proof.
  intros (cfg' & d & Hc & Hd & D1 & D2 & D3 & D4 & Hu) H Hc'. rewrite Hc in Hc'. injection Hc' as ->. unfold b_update_data in H. rewrite Hd in H.
  cbn [unwrap unwrap_or bind] in H.
  rewrite (proj2 (Z.leb_gt _ _)), (proj2 (Z.eqb_neq (c_now c) _)), (proj2 (Z.eqb_neq (ec_eps cfg) _)), (proj2 (Z.eqb_neq (pb_shares _) _)) in H by lia. cbn [orb] in H.
  rewrite Hu in H. apply bind_iff in H as (q & Hq & H). apply i128_ok in Hq as [-> _]. apply bind_iff in H as (? & _ & H).
  apply bind_iff in H as (dt & _ & H). apply bind_iff in H as (tk & _ & H). apply bind_iff in H as (ad & Ha & _). unfold fdiv_floor in Ha.
  apply bind_iff in Ha as (z & _ & Ha). by apply div_floor_zero in Ha.
Qed.
Lemma stuckx_emissions c x p u ub cl r : stuckx (c_now c) x p -> b_emissions c x p (get_pb x p) u ub cl = Ok r -> False.
Proof.
  intros Hs H. unfold b_emissions in H. pose proof Hs as (cfg & d & Hc & _). rewrite Hc in H. apply bind_iff in H as (y & H & _). by eapply stuckx_update.
Qed.
Lemma stuckx_ecfg c x p n r : stuckx (c_now c) x p -> b_set_ecfg c x p (get_pb x p) n = Ok r -> False.
Proof.
  intros Hs H. unfold b_set_ecfg in H. pose proof Hs as (cfg & d & Hc & _). rewrite Hc in H. apply bind_iff in H as (y & H & _). apply bind_iff in H as (z & H & _). by eapply stuckx_update.
Qed.

(** updates of other pools *)
Lemma data_other c x q pb cfg d x' p : b_update_data c x q pb cfg = Ok (d, x') -> q <> p -> frozen p x x'.
Proof.
  unfold b_update_data. intros H Hne. mon1 H. destruct (_ || _); [mon H; done|]. mon H. unfold frozen, get_pb. simpl. by rewrite lookup_insert_ne.
Qed.
Lemma emis_other c x q pb u ub cl n x' p : b_emissions c x q pb u ub cl = Ok (n, x') -> q <> p -> frozen p x x'.
Proof.
  unfold b_emissions. intros H Hne. destruct (bs_ecfg _ !! _); [|mon H; done]. mon H. apply (data_other _ _ _ _ _ _ _ p) in E; [|done]. eapply frozen_trans; [exact E|].
  unfold b_update_user, b_set_user in H. destruct (bs_uemis _ !! _).
  - destruct (_ || _); [|mon H; done]. destruct (_ =? _); [|mon1 H; mon1 H; mon1 H; mon1 H]; destruct cl; mon H; done.
  - destruct (_ =? _); [|mon1 H]; destruct cl; mon H; done.
Qed.
Lemma ecfg_other c x q pb n x' p : b_set_ecfg c x q pb n = Ok x' -> q <> p -> frozen p x x'.
Proof.
  unfold b_set_ecfg. intros H Hne. mon H. match goal with |- frozen p x (set_becfg ?y _ _) => apply (frozen_trans p x y) end; [|unfold frozen, get_pb; simpl; by rewrite lookup_insert_ne].
  destruct (bs_ecfg _ !! _); mon E; [|unfold frozen, get_pb; simpl; by rewrite lookup_insert_ne].
  match goal with E : b_update_data _ _ _ _ _ = Ok _ |- _ => apply (data_other _ _ _ _ _ _ _ p) in E; [|done]; rename E into Ed end.
  destruct (_ <? _); mon E; (destruct (negb _); [eapply frozen_trans; [exact Ed|unfold frozen, get_pb; simpl; by rewrite lookup_insert_ne]|exact Ed]).
Qed.
Lemma set_other x q u pb ub p : q <> p -> frozen p x (set_ub (set_pb x q pb) q u ub).
Proof. intros Hne. unfold frozen, get_pb. simpl. by rewrite lookup_insert_ne. Qed.
Lemma set_other' x q u pb ub p : q <> p -> frozen p x (set_pb (set_ub x q u ub) q pb).
Proof. intros Hne. unfold frozen, get_pb. simpl. by rewrite lookup_insert_ne. Qed.
(** changes of the tokens of a pool *)
Lemma set_tokens x q pb p : pb_shares pb = pb_shares (get_pb x q) -> pb_q4w pb = pb_q4w (get_pb x q) -> frozen p x (set_pb x q pb).
Proof.
  intros H1 H2. unfold frozen. rewrite (get_pb_upd x (set_pb x q pb) q pb p) by done. destruct (Z.eqb_spec q p) as [->|]; [|done]. by rewrite H1, H2.
Qed.
Lemma draw_frozen c x q n to x' p : b_draw c x q n to = Ok x' -> frozen p x x'.
Proof.
  unfold b_draw. intros H. mon H. unfold pb_withdraw in E1. mon E1. apply i128_ok in E4 as [-> _]. apply i128_ok in E5 as [-> _].
  eapply frozen_trans; [apply (set_tokens x q (mkPoolBal (pb_shares (get_pb x q) - 0) t0 (pb_q4w (get_pb x q) - 0)) p); simpl; lia|]. done.
Qed.
Lemma donate_frozen c x f q n x' p : b_donate c x f q n = Ok x' -> frozen p x x'.
Proof.
  unfold b_donate. intros H. mon H. match goal with E : pb_deposit _ _ _ = Ok _ |- _ => unfold pb_deposit in E; mon E end.
  match goal with E : i128 (pb_shares _ + 0) = Ok _ |- _ => apply i128_ok in E as [-> _] end.
  eapply frozen_trans; [|apply set_tokens]; [done| |]; unfold get_pb; simpl; [lia|done].
Qed.
Lemma xmoves_frozen c self x x' p : xmoves c self x x' -> frozen p x x'.
Proof.
  induction 1 as [x|x y z H _ IH]; [done|]. eapply frozen_trans; [|exact IH]. destruct H; try done; [by eapply draw_frozen|by eapply donate_frozen|].
  unfold b_gulp_pool in H. mon H. done.
Qed.
Lemma gulp_frozen c x n x' p : b_gulp c x = Ok (n, x') -> stuckx (c_now c) x p -> frozen p x x' /\ p ∉ bs_rz (x_bs x).
Proof.
  unfold b_gulp. intros H Hs. mon H. match goal with E : foldM (gulp_one _ _ _ _) _ _ = Ok _ |- _ => rename E into Eg end.
  match type of Eg with foldM _ ?y _ = _ => assert (frozen p x y) as Hf by done; revert Hf Eg; generalize y end.
  generalize (bs_rz (x_bs x)) as l. clear G. induction l as [|q l IH]; intros y Hf Eg; simpl in Eg; [injection Eg as <-; split; [done|set_solver]|].
  mon1 Eg. match goal with E : gulp_one _ _ _ _ _ _ = Ok _ |- _ => unfold gulp_one in E; mon E end.
  match goal with E : b_set_ecfg _ _ _ _ _ = Ok _ |- _ => rename E into Es end.
  destruct (decide (q = p)) as [->|Hne].
  - exfalso. eapply (stuckx_ecfg c); [|exact Es]. eapply frozen_stuck; [|reflexivity|exact Hs]. exact Hf.
  - apply (ecfg_other _ _ _ _ _ _ p) in Es; [|done]. apply IH in Eg as [H1 H2]; [split; [done|set_solver]|]. eapply frozen_trans; [exact Hf|]. exact Es.
Qed.
Lemma claim_frozen c x u ps to lp n x' p : b_claim c x u ps to lp = Ok (n, x') -> stuckx (c_now c) x p -> frozen p x x' /\ p ∉ ps.
Proof.
  unfold b_claim. intros H Hs. mon1 H. mon1 H. apply bind_iff in H as ([[cl cs] x1] & Ec & H).
  assert (frozen p x x1 /\ p ∉ ps) as [Hf Hp].
  { assert (frozen p x x) as Hf by done. revert Hf Ec. generalize x at 2 3 as y. generalize 0 as z. generalize (∅ : gmap Addr Z) as m. clear - Hs.
    induction ps as [|q l IH]; intros m z y Hf Ec; simpl in Ec; [injection Ec as <- <- <-; split; [done|set_solver]|].
    apply bind_iff in Ec as ([[z1 m1] y1] & Eo & Ec). apply bind_iff in Eo as ([a y2] & Ee & Eo). apply bind_iff in Eo as (z2 & _ & [= <- <- <-]).
    destruct (decide (q = p)) as [->|Hne].
    - exfalso. eapply (stuckx_emissions c); [|exact Ee]. by eapply frozen_stuck; [exact Hf| |].
    - apply (emis_other _ _ _ _ _ _ _ _ _ p) in Ee; [|done]. apply IH in Ec as [H1 H2]; [split; [done|set_solver]|]. eapply frozen_trans; [exact Hf|exact Ee]. }
  split; [|done]. destruct (0 <? cl); [|by mon H]. mon H.
  match goal with E : foldM (claim_dep _ _ _ _) _ _ = Ok _ |- _ => rename E into Ed end.
  eapply frozen_trans; [exact Hf|]. eapply (foldM_rel (frozen p)) in Ed; [|by intros; apply frozen_refl|by intros; eapply frozen_trans|].
  - eapply frozen_trans; [|exact Ed]. done.
  - intros s q s' Hin Hq. unfold claim_dep in Hq. mon Hq. apply set_other. set_solver.
Qed.

Lemma mint_frozen x to n x' p : em_mint x to n = Ok x' -> frozen p x x'.
Proof. unfold em_mint. intros H. mon H. done. Qed.
Lemma distribute_frozen c x b n x' p : em_execute_distribute c x b = Ok (n, x') -> frozen p x x'.
Proof. unfold em_execute_distribute. intros H. mon H. match goal with E : em_mint _ _ _ = Ok _ |- _ => apply (mint_frozen _ _ _ _ p) in E; exact E end. Qed.
Lemma drop_frozen c x l x' p : em_drop c x l = Ok x' -> frozen p x x'.
Proof.
  unfold em_drop. intros H. mon H. match goal with E : foldM _ _ l = Ok _ |- _ => rename E into Ef end.
  eapply (foldM_rel (frozen p)) in Ef; [exact Ef|by intros; apply frozen_refl|by intros; eapply frozen_trans|]. intros s [a n] s' _ Hq. by eapply mint_frozen.
Qed.

(** the operation takes shares of [p] out of the backstop *)
Definition withdraws (p : Addr) (o : Op) : Prop := exists sg u n, o = OExt sg (BWithdraw u p n).
Lemma stuck_exec w o out w' p : exec w o = Ok (out, w') -> stuck w p -> ~ withdraws p o -> stuck w' p.
Proof.
  intros H Hs Hw. apply stuck_x in Hs. apply stuck_x. pose proof (exec_now _ _ _ _ H) as Hn. refine (frozen_stuck p _ _ _ _ _ Hn Hs).
  unfold exec in H. destruct o as [sg o|sg a o|sg ad sa orc ra mp|b|dt ds|orc|n|b t u|b r|].
  2:{ mon H. simpl. apply p_exec_xmoves in E0. by eapply xmoves_frozen. }
  2:{ mon H. destruct (w_pools w !! _); [done|]. mon H. done. }
  2:{ mon H. destruct (w_pools w !! _); [done|]. mon H. done. }
  2-7: mon H; done.
  mon1 H. apply bind_iff in H as ([out' x] & E & [= <- <-]). simpl. destruct o; simpl in E; unfold ret_unit, ret_z in E.
  - mon E. unfold em_initialize in E0. mon E0. done.
  - mon E. unfold em_distribute in E0. mon E0. by eapply distribute_frozen.
  - mon E. unfold em_queue_swap in E0. mon E0. done.
  - mon E. unfold em_cancel_swap in E0. mon E0. done.
  - mon E. unfold em_swap_backstop in E0. mon E0. match goal with E : em_execute_distribute _ _ _ = Ok _ |- _ => apply (distribute_frozen _ _ _ _ _ p) in E end. done.
  - mon E. by eapply drop_frozen.
  - mon E. unfold fa_initialize in E0. mon E0. done.
  - mon E. unfold b_initialize in E0. mon E0. done.
  - (* deposit *) mon E. unfold b_deposit in E0. mon E0.
    match goal with E : b_emissions _ _ _ _ _ _ _ = Ok _ |- _ => rename E into Ee end.
    destruct (decide (pool = p)) as [->|Hne]; [exfalso; by eapply (stuckx_emissions (ctx w sg))|].
    apply (emis_other _ _ _ _ _ _ _ _ _ p) in Ee; [|done]. eapply frozen_trans; [exact Ee|]. eapply frozen_trans; [|by apply set_other]. done.
  - (* queue *) mon E. unfold b_queue in E0. mon E0.
    match goal with E : b_emissions _ _ _ _ _ _ _ = Ok _ |- _ => rename E into Ee end.
    destruct (decide (pool = p)) as [->|Hne]; [exfalso; by eapply (stuckx_emissions (ctx w sg))|].
    apply (emis_other _ _ _ _ _ _ _ _ _ p) in Ee; [|done]. eapply frozen_trans; [exact Ee|]. by apply set_other'.
  - (* dequeue *) mon E. unfold b_dequeue in E0. mon E0.
    match goal with E : b_emissions _ _ _ _ _ _ _ = Ok _ |- _ => rename E into Ee end.
    destruct (decide (pool = p)) as [->|Hne]; [exfalso; by eapply (stuckx_emissions (ctx w sg))|].
    apply (emis_other _ _ _ _ _ _ _ _ _ p) in Ee; [|done]. eapply frozen_trans; [exact Ee|]. by apply set_other'.
  - (* withdraw *) destruct (decide (pool = p)) as [->|Hne]; [destruct Hw; by exists sg, from, amt|]. mon E. unfold b_withdraw in E0. mon E0. simpl.
    eapply frozen_trans; [by apply set_other'|]. done.
  - mon E. by eapply draw_frozen.
  - mon E. by eapply donate_frozen.
  - mon E. unfold b_update_tkn_val in E0. mon E0. done.
  - mon E. unfold b_drop in E0. mon E0. by eapply drop_frozen.
  - mon E. unfold b_add_reward in E0. mon E0. destruct (_ <? max_rz_len _); mon E0; done.
  - mon E. by apply (gulp_frozen (ctx w sg) _ _ _ p) in E0 as [? _].
  - mon E. unfold b_gulp_pool in E0. mon E0. done.
  - mon E. by apply (claim_frozen (ctx w sg) _ _ _ _ _ _ _ p) in E0 as [? _].
  - mon E. done.
  - mon E. done.
  - mon E. done.
  - mon E. done.
  - mon E. done.
Qed.

Lemma zone_exec w o out w' p : exec w o = Ok (out, w') -> reachable w -> bs_init (x_bs (w_ext w)) = true -> stuck w p -> p ∈ bs_rz (x_bs (w_ext w)) ->
  bs_last (x_bs (w_ext w)) + 86400 < w_now w ->
  p ∈ bs_rz (x_bs (w_ext w')) /\ bs_last (x_bs (w_ext w')) = bs_last (x_bs (w_ext w)) /\ bs_init (x_bs (w_ext w')) = true.
Proof.
  intros H Hr Hi Hs Hp Hl. pose proof (exec_dmoves _ _ _ _ H) as Hd. apply stuck_x in Hs.
  destruct o as [sg o|sg a o|sg ad sa orc ra mp|b|dt ds|orc|n|b t u|b r|].
  2-10: apply dmoves_rz in Hd as (D0 & D1 & D2); rewrite D0, D1, D2; done.
  destruct o; try (apply dmoves_rz in Hd as (D0 & D1 & D2); rewrite D0, D1, D2; done); clear Hd; unfold exec in H; mon1 H; apply bind_iff in H as ([out' x] & E & [= <- <-]); simpl; simpl in E; unfold ret_unit, ret_z in E; mon E.
  - unfold b_initialize in E0. mon E0. rewrite Hi in *. done.
  - unfold b_add_reward in E0. mon E0. destruct (_ <? max_rz_len _); mon E0; simpl; [split; [set_solver|done]|]. exfalso.
    match goal with E : u64 _ = Ok _ |- _ => apply u64_ok in E as [-> _] end. simpl in *. lia.
  - apply (gulp_frozen (ctx w sg) _ _ _ p) in E0 as [_ ?]; done.
Qed.

(** C63: while all shares of a pool of the reward zone are queued, emissions are blocked for the whole
    reward zone: nobody can distribute, and nobody can deposit into the pool, queue, dequeue or claim.  It
    stays so for ever, whatever anybody does, until shares of the pool are withdrawn. *)
Theorem C63_blocked_until_withdrawal : forall w l p, reachable w -> bs_init (x_bs (w_ext w)) = true ->
  stuck w p -> p ∈ bs_rz (x_bs (w_ext w)) -> bs_last (x_bs (w_ext w)) + 86400 < w_now w ->
  (forall l1 o l2, l = l1 ++ o :: l2 -> withdraws p o -> ~ succeeds (run w l1) o) ->
  let w' := run w l in
  p ∈ bs_rz (x_bs (w_ext w')) /\
  (forall sg, ~ succeeds w' (OExt sg BGulp)) /\
  (forall sg u n, ~ succeeds w' (OExt sg (BDeposit u p n)) /\ ~ succeeds w' (OExt sg (BQueue u p n)) /\ ~ succeeds w' (OExt sg (BDequeue u p n))) /\
  (forall sg u ps to n, p ∈ ps -> ~ succeeds w' (OExt sg (BClaim u ps to n))).
Proof.
  intros w l p Hr Hi Hs Hp Hl Hw.
  assert (reachable (run w l) /\ bs_init (x_bs (w_ext (run w l))) = true /\ stuck (run w l) p /\ p ∈ bs_rz (x_bs (w_ext (run w l))) /\
    bs_last (x_bs (w_ext (run w l))) + 86400 < w_now (run w l)) as (Hr' & Hi' & Hs' & Hp' & Hl').
  { revert Hw. induction l as [|o l IH] using rev_ind; intros Hw; [done|]. rewrite run_snoc.
    assert (forall l1 o l2, l = l1 ++ o :: l2 -> withdraws p o -> ~ succeeds (run w l1) o) as Hw'.
    { intros l1 o' l2 -> Ho. apply (Hw l1 o' (l2 ++ [o])); [by rewrite <- app_assoc|done]. }
    destruct (IH Hw') as (A1 & A2 & A3 & A4 & A5). unfold step. destruct (exec (run w l) o) as [[out w2]|] eqn:E; [|done].
    assert (~ withdraws p o) as Hno. { intros Ho. apply (Hw l o [] eq_refl Ho). by exists out, w2. }
    split. { destruct A1 as (w0 & l0 & ? & E0). exists w0, (l0 ++ [o]). split; [done|]. rewrite run_snoc, <- E0. unfold step. by rewrite E. }
    destruct (zone_exec _ _ _ _ p E A1 A2 A3 A4 A5) as (B1 & B2 & B3). pose proof (exec_now _ _ _ _ E). rewrite B2. split; [done|]. split; [by eapply stuck_exec|]. split; [done|lia]. }
  cbv zeta. generalize dependent (run w l). intros w' Hr' Hi' Hs' Hp' Hl'. split; [done|]. pose proof (proj1 (stuck_x _ _) Hs') as Hsx.
  split. { intros sg (out & w2 & H). unfold exec in H. mon H. simpl in E. unfold ret_z in E. mon E. by apply (gulp_frozen (ctx w' sg) _ _ _ p) in E0 as [_ ?]. }
  split.
  - intros sg u n. split; [|split]; intros (out & w2 & H); unfold exec in H; mon1 H; apply bind_iff in H as ([out' x] & E & _); simpl in E; unfold ret_unit, ret_z in E; mon E.
    + unfold b_deposit in E0. mon E0. match goal with E : b_emissions _ _ _ _ _ _ _ = Ok _ |- _ => by apply (stuckx_emissions (ctx w' sg)) in E end.
    + unfold b_queue in E0. mon E0. match goal with E : b_emissions _ _ _ _ _ _ _ = Ok _ |- _ => by apply (stuckx_emissions (ctx w' sg)) in E end.
    + unfold b_dequeue in E0. mon E0. match goal with E : b_emissions _ _ _ _ _ _ _ = Ok _ |- _ => by apply (stuckx_emissions (ctx w' sg)) in E end.
  - intros sg u ps to n Hin (out & w2 & H). unfold exec in H. mon1 H. apply bind_iff in H as ([out' x] & E & _). simpl in E. unfold ret_z in E. mon E.
    by apply (claim_frozen (ctx w' sg) _ _ _ _ _ _ _ p) in E0 as [_ ?].
Qed.
