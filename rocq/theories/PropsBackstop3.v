(** * Properties of the backstop: emissions and reward zone (C43, C44, C46 - C48) *)
From Verif Require Import Base Types Token Emitter Factory Backstop PoolReserve PoolUser PoolHealth
  PoolAuction PoolSubmit PoolEmis PoolAdmin World Facts XMove Spec FrameFacts PoolFrame PoolCfg BackMoves BackInv BackEmis
  PropsEmitter PropsAdmin PropsBackstop.

(** ** Which transactions change the distribution state *)
(** [cl]: claims are allowed *)
Definition silent (cl : bool) (e : Ev) : Prop := match e with EvBClaim _ _ _ => cl = true | EvBurn _ _ _ _ => True | _ => False end.
Definition quiet (cl : bool) (x x' : Ext) : Prop :=
  bs_rz (x_bs x') = bs_rz (x_bs x) /\ bs_pemis (x_bs x') = bs_pemis (x_bs x) /\ bs_last (x_bs x') = bs_last (x_bs x) /\
  bs_init (x_bs x') = bs_init (x_bs x) /\ exists evs, x_log x' = evs ++ x_log x /\ Forall (silent cl) evs.
Lemma quiet_refl cl x : quiet cl x x.
Proof. split; [done|]. split; [done|]. split; [done|]. split; [done|]. by exists []. Qed.
Lemma quiet_trans cl x y z : quiet cl x y -> quiet cl y z -> quiet cl x z.
Proof.
  intros (A1 & A2 & A3 & A4 & e1 & A5 & A6) (B1 & B2 & B3 & B4 & e2 & B5 & B6).
  split; [congruence|]. split; [congruence|]. split; [congruence|]. split; [congruence|]. exists (e2 ++ e1). rewrite B5, A5, app_assoc. split; [done|by apply Forall_app].
Qed.
Lemma quiet_same cl x x' : bs_rz (x_bs x') = bs_rz (x_bs x) -> bs_pemis (x_bs x') = bs_pemis (x_bs x) -> bs_last (x_bs x') = bs_last (x_bs x) ->
  bs_init (x_bs x') = bs_init (x_bs x) -> x_log x' = x_log x -> quiet cl x x'.
Proof. intros. split; [done|]. split; [done|]. split; [done|]. split; [done|]. exists []. done. Qed.
Lemma quiet_ev cl e x : silent cl e -> quiet cl x (add_log e x).
Proof. intros H. split; [done|]. split; [done|]. split; [done|]. split; [done|]. exists [e]. split; [done|]. by repeat constructor. Qed.
Lemma emis_quiet cl x x' : emis_frame x x' -> quiet cl x x'.
Proof. intros (e & u & ->). by apply quiet_same. Qed.

Inductive dmove (cl : bool) : Ext -> Ext -> Prop :=
| dm_quiet x x' : quiet cl x x' -> dmove cl x x'
| dm_pool c x p n x' : b_gulp_pool c x p = Ok (n, x') -> dmove cl x x'
| dm_mint x x' tok to n : x_bs x' = x_bs x -> x_log x' = EvMint tok to n :: x_log x -> 0 <= n -> dmove cl x x'.
Notation dmoves cl := (rtc (dmove cl)).

Lemma xmoves_dmoves cl c self x x' : xmoves c self x x' -> dmoves cl x x'.
Proof.
  induction 1 as [x|x y z H _ IH]; [apply rtc_refl|]. eapply rtc_l; [|exact IH]. destruct H.
  - by apply dm_quiet, quiet_same.
  - by apply dm_quiet, quiet_same.
  - apply dm_quiet. unfold b_draw in *. mon H. by apply quiet_same.
  - apply dm_quiet. unfold b_donate in *. mon H. by apply quiet_same.
  - by eapply dm_pool.
  - by apply dm_quiet, quiet_ev.
Qed.
Lemma em_mint_dmove cl x to n x' : em_mint x to n = Ok x' -> dmove cl x x'.
Proof. unfold em_mint. intros H. mon H. apply mint_spec in E as (? & _). by eapply dm_mint. Qed.
Lemma distribute_dmoves cl c x b n x' : em_execute_distribute c x b = Ok (n, x') -> dmoves cl x x'.
Proof.
  unfold em_execute_distribute. intros H. mon H. match goal with E : em_mint _ _ _ = Ok _ |- _ => apply (em_mint_dmove cl) in E; rename E into Em end.
  eapply rtc_l; [|by apply rtc_once]. by apply dm_quiet, quiet_same.
Qed.
Lemma drop_dmoves cl c x l x' : em_drop c x l = Ok x' -> dmoves cl x x'.
Proof.
  unfold em_drop. intros H. mon H.
  match goal with E : foldM (fun x p => em_mint _ _ _) _ _ = Ok ?y |- _ => apply (rtc_transitive _ y); [revert E|apply rtc_once; by apply dm_quiet, quiet_same] end.
  apply (foldM_rel (dmoves cl)); [intros; apply rtc_refl|intros; by eapply rtc_transitive|]. intros. apply rtc_once. by eapply em_mint_dmove.
Qed.
Lemma claim_quiet c x f ps t lp n x' : b_claim c x f ps t lp = Ok (n, x') -> quiet true x x'.
Proof.
  unfold b_claim. intros H. mon1 H. mon1 H. apply bind_ok in H as ([[n1 m1] x1] & H1 & H2).
  assert (quiet true x x1) as Hq.
  { change (quiet true (snd ((0, ∅, x) : Z * gmap Addr Z * Ext)) (snd (n1, m1, x1))). revert H1.
    apply (foldM_rel (fun s s' : Z * gmap Addr Z * Ext => quiet true (snd s) (snd s'))); [intros; apply quiet_refl|intros; by eapply quiet_trans|].
    intros [[a1 b1] y] q [[a2 b2] z] _ Hs. unfold claim_one in Hs. apply bind_ok in Hs as ([a3 x2] & E1 & Hs). mon1 Hs. apply Ok_inj in Hs. simplify_eq. simpl.
    eapply quiet_trans; [by eapply emis_quiet, emis_frame_b|by apply quiet_ev]. }
  destruct (0 <? n1); mon H2; [|done]. eapply quiet_trans; [exact Hq|].
  match goal with E : foldM (claim_dep _ _ _ _) ?y _ = Ok _ |- _ => apply (quiet_trans _ _ y); [by apply quiet_same|revert E] end.
  apply (foldM_rel (quiet true)); [intros; apply quiet_refl|intros; by eapply quiet_trans|].
  intros s a s' _ E'. unfold claim_dep in E'. mon E'. by apply quiet_same.
Qed.

Definition is_claim (o : Op) : bool := match o with OExt _ (BClaim _ _ _ _) => true | _ => false end.
Lemma exec_dmoves w o out w' : exec w o = Ok (out, w') ->
  match o with OExt _ BGulp | OExt _ (BInit _ _ _ _ _ _) | OExt _ (BAddReward _ _) => True | _ => dmoves (is_claim o) (w_ext w) (w_ext w') end.
Proof.
  intros H. unfold exec in H. destruct o as [sg o|sg a o|sg ad sa orc ra mp|b|dt ds|orc|n|b t u|b r|].
  2:{ mon H. simpl. apply p_exec_xmoves in E0. simpl in E0. by eapply xmoves_dmoves. }
  2:{ mon H. destruct (w_pools w !! _); [done|]. mon H. apply rtc_once. by apply dm_quiet, quiet_same. }
  2:{ mon H. destruct (w_pools w !! _); [done|]. mon H. apply rtc_once. by apply dm_quiet, quiet_same. }
  2-7: mon H; apply rtc_once; by apply dm_quiet, quiet_same.
  mon H. simpl in *.
  destruct o; simpl in E; unfold ret_unit, ret_z in E; mon E; simpl; try exact I.
  - unfold em_initialize in E0. mon E0. apply rtc_once. by apply dm_quiet, quiet_same.
  - unfold em_distribute in E0. mon E0. by eapply distribute_dmoves.
  - unfold em_queue_swap in E0. mon E0. apply rtc_once. by apply dm_quiet, quiet_same.
  - unfold em_cancel_swap in E0. mon E0. apply rtc_once. by apply dm_quiet, quiet_same.
  - unfold em_swap_backstop in E0. mon E0. simpl.
    match goal with E : em_execute_distribute _ _ _ = Ok _ |- _ => apply (distribute_dmoves false) in E; eapply rtc_r; [exact E|] end. by apply dm_quiet, quiet_same.
  - by eapply drop_dmoves.
  - unfold fa_initialize in E0. mon E0. apply rtc_once. by apply dm_quiet, quiet_same.
  - unfold b_deposit in E0. mon E0. apply rtc_once, dm_quiet.
    match goal with E : b_emissions _ _ _ _ _ _ _ = Ok _ |- _ => apply emis_frame_b in E; apply (emis_quiet false) in E; eapply quiet_trans; [exact E|] end. by apply quiet_same.
  - unfold b_queue in E0. mon E0. apply rtc_once, dm_quiet.
    match goal with E : b_emissions _ _ _ _ _ _ _ = Ok _ |- _ => apply emis_frame_b in E; apply (emis_quiet false) in E; eapply quiet_trans; [exact E|] end. by apply quiet_same.
  - unfold b_dequeue in E0. mon E0. apply rtc_once, dm_quiet.
    match goal with E : b_emissions _ _ _ _ _ _ _ = Ok _ |- _ => apply emis_frame_b in E; apply (emis_quiet false) in E; eapply quiet_trans; [exact E|] end. by apply quiet_same.
  - unfold b_withdraw in E0. mon E0. apply rtc_once. by apply dm_quiet, quiet_same.
  - unfold b_draw in E0. mon E0. apply rtc_once. by apply dm_quiet, quiet_same.
  - unfold b_donate in E0. mon E0. apply rtc_once. by apply dm_quiet, quiet_same.
  - unfold b_update_tkn_val in E0. mon E0. apply rtc_once. by apply dm_quiet, quiet_same.
  - unfold b_drop in E0. mon E0. by eapply drop_dmoves.
  - apply rtc_once. by eapply dm_pool.
  - apply rtc_once, dm_quiet. by eapply claim_quiet.
  - apply rtc_once. by apply dm_quiet, quiet_same.
  - apply rtc_once. by apply dm_quiet, quiet_same.
  - apply rtc_once. by apply dm_quiet, quiet_same.
  - apply rtc_once. by apply dm_quiet, quiet_same.
  - apply rtc_once. by apply dm_quiet, quiet_same.
Qed.
Lemma dmove_rz cl x x' : dmove cl x x' -> bs_rz (x_bs x') = bs_rz (x_bs x) /\ bs_last (x_bs x') = bs_last (x_bs x) /\ bs_init (x_bs x') = bs_init (x_bs x).
Proof.
  destruct 1 as [x x' (H1 & _ & H2 & H3 & _)|c x p n x' H|x x' tok to n -> _ _]; try done.
  unfold b_gulp_pool in H. mon H. done.
Qed.
Lemma dmoves_rz cl x x' : dmoves cl x x' -> bs_rz (x_bs x') = bs_rz (x_bs x) /\ bs_last (x_bs x') = bs_last (x_bs x) /\ bs_init (x_bs x') = bs_init (x_bs x).
Proof. induction 1 as [|x y z H _ (I1 & I2 & I3)]; [done|]. apply dmove_rz in H as (H1 & H2 & H3). repeat split; congruence. Qed.

(** ** The distribution of one [gulp_emissions] *)
Lemma b_set_ecfg_quiet c x p pb n x' : b_set_ecfg c x p pb n = Ok x' -> quiet false x x'.
Proof.
  unfold b_set_ecfg. intros H. mon H. eapply quiet_trans; [|by apply quiet_same].
  destruct (bs_ecfg _ !! _); mon E; [|by apply quiet_same].
  match goal with E : b_update_data _ _ _ _ _ = Ok _ |- _ => apply emis_frame_data in E; apply (emis_quiet false) in E; rename E into Eq end.
  destruct (_ <? _); mon E; (destruct (negb _); [eapply quiet_trans; [exact Eq|by apply quiet_same]|exact Eq]).
Qed.
Lemma b_set_ecfg_log c x p pb n x' : b_set_ecfg c x p pb n = Ok x' -> x_log x' = x_log x.
Proof.
  unfold b_set_ecfg. intros H. mon H. simpl.
  destruct (bs_ecfg _ !! _); mon E; [|done].
  match goal with E : b_update_data _ _ _ _ _ = Ok _ |- _ => apply emis_frame_data in E as (? & ? & ->) end.
  destruct (_ <? _); mon E; by destruct (negb _).
Qed.

(** the allocation to pool [p] *)
Definition ev_alloc (x0 : Ext) (total tp tb : Z) (p : Addr) (e : Ev) : Prop :=
  exists n share, non_queued (get_pb x0 p) = Ok n /\ share = n * 10000000 / total /\
    e = EvAlloc p (share * tp / 10000000) (share * tb / 10000000).
Lemma gulp_loop c total tp tb l x0 x x' :
  foldM (gulp_one c total tp tb) x l = Ok x' -> 0 < total -> bs_pool (x_bs x) = bs_pool (x_bs x0) ->
  exists evs, x_log x' = rev evs ++ x_log x /\ Forall2 (ev_alloc x0 total tp tb) l evs /\
    bs_rz (x_bs x') = bs_rz (x_bs x) /\ bs_last (x_bs x') = bs_last (x_bs x) /\ bs_init (x_bs x') = bs_init (x_bs x) /\
    forall q, get_pemis x' q = get_pemis x q + alloc_pool evs q.
Proof.
  intros H Ht. revert x H. induction l as [|p l IH]; simpl; intros x H Hx; mon1 H.
  { subst. exists []. split; [done|]. split; [constructor|]. repeat split. intros q. unfold alloc_pool. simpl. lia. }
  match goal with E : gulp_one _ _ _ _ _ _ = Ok _ |- _ => rename E into Eo end. unfold gulp_one in Eo. mon Eo.
  match goal with E : b_set_ecfg _ _ _ _ _ = Ok _ |- _ => rename E into Es end.
  pose proof (b_set_ecfg_fields _ _ _ _ _ _ Es) as ([_ Hb2] & _). pose proof (b_set_ecfg_quiet _ _ _ _ _ _ Es) as (Q1 & Q2 & Q3 & Q4 & _).
  pose proof (b_set_ecfg_log _ _ _ _ _ _ Es) as Q5.
  apply IH in H as (evs & I1 & I2 & I3 & I4 & I5 & I6); [|simpl in *; by rewrite Hb2].
  simpl in *.
  assert (np = n * 10000000 / total * tp / 10000000 /\ nb = n * 10000000 / total * tb / 10000000 /\ cur = get_pemis x p + np) as (Hnp & Hnb & Hcur).
  { repeat match goal with
    | E : fmul_floor _ _ _ = Ok _ |- _ => apply fmul_floor_ok in E as [-> _]; [|by vals]
    | E : fdiv_floor _ _ _ = Ok _ |- _ => apply fdiv_floor_ok in E as [-> _]; [|done]
    | E : i128 _ = Ok _ |- _ => apply i128_ok in E as [-> _] end. vals. done. }
  exists (EvAlloc p np nb :: evs). simpl. split.
  { rewrite I1, Q5. by rewrite <- app_assoc. }
  split.
  { constructor; [|done]. exists n, (n * 10000000 / total). rewrite <- (get_pb_same _ _ _ Hx). split; [done|]. split; [done|]. congruence. }
  split; [congruence|]. split; [congruence|]. split; [congruence|].
  intros q. rewrite I6. unfold alloc_pool. simpl.
  change (get_pemis (add_log (EvAlloc p np nb) x1) q) with (get_pemis x1 q) || idtac.
  unfold get_pemis in *. simpl in *. rewrite Q2. destruct (Z.eqb_spec p q) as [->|Hne].
  - rewrite lookup_insert. simpl. lia.
  - rewrite lookup_insert_ne by done. lia.
Qed.

Lemma gulp_sum_ok x l s : gulp_sum x l = Ok s -> exists ns, Forall2 (fun p n => non_queued (get_pb x p) = Ok n) l ns /\ s = sumz id ns.
Proof.
  unfold gulp_sum. intros H. cut (exists ns, Forall2 (fun p n => non_queued (get_pb x p) = Ok n) l ns /\ s = 0 + sumz id ns); [done|].
  revert H. generalize 0 as a. induction l as [|p l IH]; simpl; intros a H; mon1 H.
  { exists []. split; [constructor|]. simpl. lia. }
  mon1 E. apply i128_ok in E as [-> _]. apply IH in H as (ns & Hf & ->). exists (n :: ns). split; [by constructor|]. simpl. unfold id. lia.
Qed.
Lemma non_queued_nonneg now x p n : binv now x -> non_queued (get_pb x p) = Ok n -> 0 <= n.
Proof.
  intros Hb H. destruct (binv_pool _ _ p Hb) as [P1 P2]. unfold non_queued in H. mon1 H. apply i128_ok in H as [-> _].
  destruct (to_tokens_nonneg _ _ _ _ _ Hb (proj1 P1) E) as [Hq [[Hz ->]|[Hs ->]]]; [lia|].
  assert (pb_q4w (get_pb x p) * pb_tokens (get_pb x p) / pb_shares (get_pb x p) <= pb_tokens (get_pb x p)); [|lia].
  apply Z.div_le_upper_bound; [lia|]. nia.
Qed.

Definition to_dep (e : Ev) : Z := match e with EvAlloc _ _ d => d | _ => 0 end.
Definition to_pools (e : Ev) : Z := match e with EvAlloc _ n _ => n | _ => 0 end.

(** shares rounded down never add up to more than everything *)
Lemma share_sum x0 total tp tb l ns evs :
  0 < total -> 0 <= tp -> 0 <= tb -> Forall2 (fun p n => non_queued (get_pb x0 p) = Ok n) l ns -> Forall (fun n => 0 <= n) ns ->
  Forall2 (ev_alloc x0 total tp tb) l evs ->
  total * sumz to_pools evs <= tp * sumz id ns /\ total * sumz to_dep evs <= tb * sumz id ns /\
  Forall (fun e => 0 <= to_pools e /\ 0 <= to_dep e) evs.
Proof.
  intros Ht Hp Hb H1. revert evs. induction H1 as [|p n l ns Hn _ IH]; intros evs Hf H2; inversion H2 as [|? e ? evs' He H2']; subst; simpl; [split; [lia|]; split; [lia|done]|].
  inversion Hf as [|? ? Hn0 Hf']; subst. destruct (IH _ Hf' H2') as (I1 & I2 & I3).
  destruct He as (n' & sh & Hn' & -> & ->). rewrite Hn in Hn'. injection Hn' as <-. simpl.
  pose proof (fdiv_spec (n * 10000000) total Ht) as Hs. set (s := n * 10000000 / total) in *.
  pose proof (fdiv_spec (s * tp) 10000000 ltac:(lia)). pose proof (fdiv_spec (s * tb) 10000000 ltac:(lia)).
  set (a := s * tp / 10000000) in *. set (b := s * tb / 10000000) in *.
  assert (0 <= s) by (apply Z.div_pos; lia).
  assert (0 <= a) by (apply Z.div_pos; nia). assert (0 <= b) by (apply Z.div_pos; nia).
  assert (total * a <= tp * n) by nia. assert (total * b <= tb * n) by nia. unfold id in *.
  split; [lia|]. split; [lia|]. by constructor.
Qed.

Lemma b_gulp_spec c x n x' now : b_gulp c x = Ok (n, x') -> binv now x ->
  exists em_l tot evs, em_last (x_em x) !! bs_addr = Some em_l /\ bs_last (x_bs x) + 3600 < em_l /\
    n = (em_l - bs_last (x_bs x)) * 10000000 /\ 0 <= n /\ 0 < tot /\
    x_log x' = rev evs ++ x_log x /\
    Forall2 (ev_alloc x tot (n * 3000000 / 10000000) (n * 7000000 / 10000000)) (bs_rz (x_bs x)) evs /\
    10 * sumz to_dep evs <= 7 * n /\ 10 * sumz to_pools evs <= 3 * n /\ Forall (fun e => 0 <= to_pools e /\ 0 <= to_dep e) evs /\
    bs_rz (x_bs x') = bs_rz (x_bs x) /\ bs_last (x_bs x') = em_l /\ bs_init (x_bs x') = bs_init (x_bs x) /\ bs_init (x_bs x) = true /\
    forall q, get_pemis x' q = get_pemis x q + alloc_pool evs q.
Proof.
  unfold b_gulp. intros H Hb. mon H.
  match goal with E : foldM (gulp_one _ _ _ _) _ _ = Ok _ |- _ => rename E into Eg end.
  match goal with E : gulp_sum _ _ = Ok _ |- _ => rename E into Es end.
  rename em_last into el. unfold em_get_last, unwrap in E. destruct (em_last (x_em x) !! bs_addr) as [el'|] eqn:Eel; [|done]. apply Ok_inj in E as ->.
  apply u64_ok in E0 as [-> _]. apply u64_ok in E1 as [-> Hd]. apply i128_ok in E2 as [-> _].
  apply fmul_floor_ok in E3 as [-> _]; [|by vals]. apply fmul_floor_ok in E4 as [-> _]; [|by vals].
  apply gulp_sum_ok in Es as (ns & Hns & ->).
  set (n := (el - bs_last (x_bs x)) * SCALAR_7) in *. 
  assert (Forall (fun n => 0 <= n) ns) as Hnn.
  { clear -Hns Hb. induction Hns as [|p n l ns Hn _ IH]; constructor; [|done]. by eapply (non_queued_nonneg now x p). }
  assert (0 <= n) as Hn0 by (unfold n; vals; lia).
  assert (0 <= sumz id ns) by (apply sumz_nonneg; intros a Ha; rewrite Forall_forall in Hnn; by apply Hnn).
  assert (n = (el - bs_last (x_bs x)) * 10000000) as Hnv by done. clearbody n.
  destruct (decide (sumz id ns = 0)) as [Hz|Hz].
  { exfalso. destruct (bs_rz (x_bs x)) as [|p l]; [done|]. simpl in Eg. mon1 Eg.
    match goal with E : gulp_one _ _ _ _ _ _ = Ok _ |- _ => unfold gulp_one in E; mon1 E; mon1 E; rename E into Ex end.
    match goal with E : fdiv_floor _ _ _ = Ok _ |- _ => unfold fdiv_floor, div_floor in E; rewrite Hz in E; mon1 E end. discriminate. }
  destruct (gulp_loop _ _ _ _ _ x _ _ Eg) as (evs & I1 & I2 & I3 & I4 & I5 & I6); [apply Z.le_neq; split; [done|by apply not_eq_sym]|done|].
  assert (0 < sumz id ns) as Hs0 by (apply Z.le_neq; split; [done|by apply not_eq_sym]).
  pose proof (share_sum x (sumz id ns) (n * 3000000 / SCALAR_7) (n * 7000000 / SCALAR_7) _ _ _ Hs0 ltac:(apply Z.div_pos; vals; lia) ltac:(apply Z.div_pos; vals; lia) Hns Hnn I2) as (S1 & S2 & S3).
  exists el, (sumz id ns), evs. simpl in *.
  split; [done|]. split; [lia|]. split; [done|]. split; [done|]. split; [done|]. split; [done|]. split; [done|].
  clear Hz. generalize dependent (sumz id ns). intros sn. intros.
  pose proof (fdiv_spec (n * 3000000) SCALAR_7 ltac:(vals; lia)). pose proof (fdiv_spec (n * 7000000) SCALAR_7 ltac:(vals; lia)).
  vals. split; [nia|]. split; [nia|]. split; [done|]. split; [done|]. split; [done|]. split; [done|]. split; [|done].
  by destruct (bs_init (x_bs x)).
Qed.

(** ** C43 *)
(** One [gulp_emissions] returns one BLND (7 decimals) per second between the last
    gulp and the emitter's last distribution, and allocates (as recorded in the log)
    at most 70% of it to depositors and at most 30% to pools; only pools of the reward
    zone receive anything, and the clock advances to the emitter's last distribution. *)
Theorem C43_allocates_at_most_emitted w sg n w' :
  reachable w -> exec w (OExt sg BGulp) = Ok (OutZ n, w') ->
  exists last evs,
    em_last (emitter w) !! bs_addr = Some last /\ n = (last - bs_last (x_bs (w_ext w))) * 10000000 /\
    bs_last (x_bs (w_ext w')) = last /\
    x_log (w_ext w') = evs ++ x_log (w_ext w) /\
    10 * sumz to_dep evs <= 7 * n /\ 10 * sumz to_pools evs <= 3 * n /\
    Forall (fun e => exists p np nb, e = EvAlloc p np nb /\ p ∈ bs_rz (x_bs (w_ext w)) /\ 0 <= np /\ 0 <= nb) evs.
Proof.
  intros Hr H. unfold exec in H. mon H. simpl in E. unfold ret_z in E. mon E.
  destruct (b_gulp_spec _ _ _ _ _ E0 (reachable_binv _ Hr)) as (el & tot & evs & A1 & A2 & A3 & A4 & A5 & A6 & A7 & A8 & A9 & A10 & _ & A11 & _).
  exists el, (rev evs). simpl. split; [done|]. split; [done|]. split; [done|]. split; [done|].
  rewrite !(sumz_perm _ (rev evs) evs) by (apply rev_Permutation || (symmetry; apply Permutation_rev)).
  split; [done|]. split; [done|].
  apply Forall_rev. clear -A7 A10. induction A7 as [|p e l evs He _ IH]; [constructor|].
  inversion A10 as [|? ? Hp A10']; subst. constructor.
  - destruct He as (n0 & s & _ & _ & ->). eexists _, _, _. split; [done|]. split; [set_solver|]. done.
  - eapply Forall_impl; [by apply IH|]. intros ev (q & a & b & -> & Hq & ?). eexists _, _, _. split; [done|]. split; [set_solver|done].
Qed.

(** ** C46: the reward zone *)
Lemma reward_zone_changes w o out w' : exec w o = Ok (out, w') ->
  bs_rz (x_bs (w_ext w')) = bs_rz (x_bs (w_ext w)) \/
  exists sg a r d, o = OExt sg (BAddReward a r) /\ a ∉ bs_rz (x_bs (w_ext w)) /\
    pool_data (w_ext w) a = Ok d /\ above_threshold d = true /\
    ((Z.of_nat (length (bs_rz (x_bs (w_ext w)))) < max_rz_len (w_now w) /\ bs_rz (x_bs (w_ext w')) = a :: bs_rz (x_bs (w_ext w))) \/
     (max_rz_len (w_now w) <= Z.of_nat (length (bs_rz (x_bs (w_ext w)))) /\ r ∈ bs_rz (x_bs (w_ext w)) /\
      bs_rz (x_bs (w_ext w')) = replace_first r a (bs_rz (x_bs (w_ext w))) /\
      pb_tokens (get_pb (w_ext w) r) < pb_tokens (get_pb (w_ext w) a))).
Proof.
  intros H. pose proof (exec_dmoves _ _ _ _ H) as Hd.
  destruct o as [sg o|sg a o|sg ad sa orc ra mp|b|dt ds|orc|n|b t v|b r|]; try (left; by apply dmoves_rz in Hd as (? & _)).
  destruct o; try (left; by apply dmoves_rz in Hd as (? & _)); clear Hd; unfold exec in H; mon H; simpl in E; unfold ret_unit, ret_z in E; mon E.
  - left. unfold b_initialize in E0. mon E0. done.
  - right. unfold b_add_reward in E0. mon E0. exists sg, to_add, to_remove.
    match goal with E : pool_data _ _ = Ok ?d |- _ => exists d; rename E into Ep end. split; [done|].
    assert (to_add ∉ bs_rz (x_bs (w_ext w))) as Hni.
    { intros Hin. apply mem_addr_elem in Hin. rewrite Hin in *. done. }
    split; [done|]. split; [done|]. split; [done|]. destruct (_ <? max_rz_len _) eqn:El; mon E0; simpl in *; [left; split; [lia|done]|right].
    split; [lia|]. split; [by apply mem_addr_elem|]. split; [done|].
    unfold pool_data in Ep. mon Ep. simpl in *. lia.
  - left. unfold b_gulp in E0. mon E0. match goal with E : foldM (gulp_one _ _ _ _) _ _ = Ok _ |- _ => revert E end.
    intros Hf. assert (forall s s' l, foldM (gulp_one (ctx w sg) total tot_pool tot_bs) s l = Ok s' -> bs_rz (x_bs s') = bs_rz (x_bs s)) as Hx.
    { intros s s' l0. apply (foldM_rel (fun s s' => bs_rz (x_bs s') = bs_rz (x_bs s))); [done|congruence|].
      intros y q y' _ Hg. unfold gulp_one in Hg. mon Hg. match goal with E : b_set_ecfg _ _ _ _ _ = Ok _ |- _ => apply b_set_ecfg_quiet in E as (Hz & _) end. simpl. by rewrite Hz. }
    by apply Hx in Hf.
Qed.
Lemma replace_first_in r a l x : x ∈ replace_first r a l -> x = a \/ x ∈ l.
Proof. induction l as [|h l IH]; simpl; [set_solver|]. destruct (h =? r); set_solver. Qed.
Lemma replace_first_len r a l : length (replace_first r a l) = length l.
Proof. induction l as [|h l IH]; simpl; [done|]. destruct (h =? r); simpl; lia. Qed.
Lemma replace_first_nodup r a l : NoDup l -> a ∉ l -> NoDup (replace_first r a l).
Proof.
  induction l as [|h l IH]; simpl; intros Hn Ha; [constructor|]. apply NoDup_cons in Hn as [Hh Hn]. destruct (h =? r); apply NoDup_cons.
  - set_solver.
  - split; [|apply IH; set_solver]. intros Hin. apply replace_first_in in Hin. set_solver.
Qed.
Lemma max_rz_mono a b : a <= b -> max_rz_len a <= max_rz_len b.
Proof.
  intros H. unfold max_rz_len, BACKSTOP_EPOCH. rewrite !Z.shiftr_div_pow2 by lia.
  destruct (a <? 1713139200) eqn:Ea, (b <? 1713139200) eqn:Eb; try lia.
  - pose proof (Z.div_pos (b - 1713139200) (2 ^ 23) ltac:(lia) ltac:(lia)). lia.
  - pose proof (Z.div_le_mono (a - 1713139200) (b - 1713139200) (2 ^ 23) ltac:(lia) ltac:(lia)). lia.
Qed.

(** The maximum length of the reward zone: 10, plus one for every 2^23 seconds
    (about 97 days) after the epoch. *)
Definition rz_max (now : Z) : Z := if now <? 1713139200 then 10 else 10 + (now - 1713139200) / 2 ^ 23.
Theorem C46_no_duplicates_and_bounded w :
  reachable w -> NoDup (bs_rz (x_bs (w_ext w))) /\ Z.of_nat (length (bs_rz (x_bs (w_ext w)))) <= rz_max (w_now w).
Proof.
  assert (forall n, rz_max n = max_rz_len n) as Hm.
  { intros n. unfold rz_max, max_rz_len, BACKSTOP_EPOCH. by rewrite Z.shiftr_div_pow2 by lia. }
  rewrite Hm. revert w. apply reach_inv.
  - intros w (now & seq & t & o & lp & -> & _). simpl. split; [constructor|]. unfold max_rz_len. destruct (now <? _) eqn:E; [lia|].
    rewrite Z.shiftr_div_pow2 by lia. pose proof (Z.div_pos (now - BACKSTOP_EPOCH) (2 ^ 23) ltac:(lia) ltac:(lia)). lia.
  - intros w o out w' [Hn Hl] H. pose proof (max_rz_mono _ _ (exec_now _ _ _ _ H)).
    destruct (reward_zone_changes _ _ _ _ H) as [->|(sg & a & r & d & -> & Ha & _ & _ & Hor)]; [split; [done|lia]|].
    destruct Hor as [[Hlt ->]|(Hge & _ & -> & _)].
    + split; [by constructor|]. simpl length. lia.
    + split; [by apply replace_first_nodup|]. rewrite replace_first_len. lia.
Qed.

Lemma replace_first_split r a l : r ∈ l -> exists l1 l2, l = l1 ++ r :: l2 /\ replace_first r a l = l1 ++ a :: l2.
Proof.
  induction l as [|h l IH]; [set_solver|]. intros H. simpl. destruct (Z.eqb_spec h r) as [->|Hne].
  - by exists [], l.
  - destruct IH as (l1 & l2 & -> & ->); [set_solver|]. by exists (h :: l1), l2.
Qed.
(** Every change of the reward zone is a successful [add_reward] call: the admitted
    pool was not listed, its recorded backstop tokens (valued at the stored BLND and
    USDC content per LP token) meet the threshold in exact arithmetic, and either the
    zone was not full and nothing is removed, or it was full and exactly one pool
    holding strictly fewer backstop tokens gives its place. *)
Theorem C46_admission w o out w' :
  exec w o = Ok (out, w') -> bs_rz (x_bs (w_ext w')) <> bs_rz (x_bs (w_ext w)) ->
  exists sg a r vb vu, o = OExt sg (BAddReward a r) /\ a ∉ bs_rz (x_bs (w_ext w)) /\
    bs_lpval (x_bs (w_ext w)) = Some (vb, vu) /\
    THRESHOLD <= exact_product (pb_tokens (pool_bal w a) * vb / 10000000) (pb_tokens (pool_bal w a) * vu / 10000000) /\
    ((Z.of_nat (length (bs_rz (x_bs (w_ext w)))) < rz_max (w_now w) /\ bs_rz (x_bs (w_ext w')) = a :: bs_rz (x_bs (w_ext w))) \/
     (rz_max (w_now w) <= Z.of_nat (length (bs_rz (x_bs (w_ext w)))) /\
      pb_tokens (pool_bal w r) < pb_tokens (pool_bal w a) /\
      exists l1 l2, bs_rz (x_bs (w_ext w)) = l1 ++ r :: l2 /\ bs_rz (x_bs (w_ext w')) = l1 ++ a :: l2)).
Proof.
  intros H Hne. destruct (reward_zone_changes _ _ _ _ H) as [Heq|(sg & a & r & d & -> & Ha & Hd & Ht & Hor)]; [by destruct (Hne Heq)|].
  assert (forall n, rz_max n = max_rz_len n) as Hm.
  { intros n. unfold rz_max, max_rz_len, BACKSTOP_EPOCH. by rewrite Z.shiftr_div_pow2 by lia. }
  unfold pool_data in Hd. mon Hd. unfold unwrap in *. destruct (bs_lpval (x_bs (w_ext w))) as [[vb vu]|] eqn:Ev; [|done].
  repeat match goal with E : Ok _ = Ok _ |- _ => apply Ok_inj in E as <- end. simpl in *.
  repeat match goal with E : fmul_floor _ _ SCALAR_7 = Ok _ |- _ => apply fmul_floor_ok in E as [-> _]; [|by vals] end.
  exists sg, a, r, vb, vu. split; [done|]. split; [done|]. split; [done|]. split.
  { apply C31_threshold_exact in Ht. simpl in Ht. exact Ht. }
  rewrite !Hm. destruct Hor as [[? ?]|(? & Hr & -> & ?)]; [by left|right]. split; [done|]. split; [done|]. by apply replace_first_split.
Qed.
