(** * The backstop credit never becomes negative: C25 *)
From Verif Require Import Base Types Token Emitter Factory Backstop PoolReserve PoolUser PoolHealth
  PoolAuction PoolSubmit PoolEmis PoolAdmin World Facts XMove Spec PoolFrame PoolCfg PoolAccrue PoolTrace PoolInv AuctionFacts
  PoolSim PoolReq PoolHF PoolOps PoolLiq PoolReach PoolTx FrameFacts PropsAdmin BackMoves BackInv PropsBackstop PropsBackstop2
  PropsPool1 PropsPool2 PropsPool3 PropsPool4 PropsPool5 PropsPool6 PropsPool7.

Lemma accrue_credit_mono t1 t2 rate1 rate2 cfg d d1 d2 :
  rd_ok d -> cfg_bounds cfg -> 0 <= rate1 <= rate2 -> rate2 < 10000000 -> t1 <= t2 ->
  accrue t1 rate1 cfg d = Ok d1 -> accrue t2 rate2 cfg d = Ok d2 -> rd_credit d1 <= rd_credit d2.
Proof.
  intros W Hc Hr1 Hr2 Ht H1 H2. assert (0 <= rate1 < 10000000) as R1 by lia. assert (0 <= rate2 < 10000000) as R2 by lia.
  destruct (accrue_spec _ _ _ _ _ W Hc R1 H1) as (_ & S1 & S2 & S3 & _ & _ & A1 & A2 & _).
  destruct (accrue_spec _ _ _ _ _ W Hc R2 H2) as (_ & U1 & U2 & U3 & V1 & V2 & B1 & B2 & _).
  assert (rd_d_rate d1 <= rd_d_rate d2) as Hd.
  { destruct (accrue_cases _ _ _ _ _ W H1) as [(-> & _)|(N & Hu & a & n & Ha & E1)]; [done|].
    destruct (accrue_cases _ _ _ _ _ W H2) as [(_ & Hz)|(N2 & _ & a2 & n2 & Ha2 & E2)].
    - apply calc_accrual_spec in Ha as (ir & _ & Hl & _). destruct Hz; lia.
    - rewrite E1, E2. apply calc_accrual_spec in Ha as (ir & C1 & Hl & _ & ->). apply calc_accrual_spec in Ha2 as (ir2 & C2 & _ & _ & ->).
      assert (ir2 = ir) as -> by congruence. pose proof (ro_ir _ W) as Hm. assert (0 <= rd_ir_mod d) as Hm0 by lia.
      pose proof (cur_rate_nonneg _ _ _ _ Hc Hu Hm0 C1) as Hir.
      apply cdiv_mono; [lia|]. apply Z.mul_le_mono_nonneg_r; [pose proof (ro_d _ W); vals; lia|].
      apply Z.add_le_mono_l, cdiv_mono; [lia|]. apply Z.mul_le_mono_nonneg_r; [lia|].
      apply Z.quot_le_mono; [lia|]. lia. }
  rewrite A2, B2. apply Z.add_le_mono_l, Z.div_le_mono; [lia|].
  assert (accrued d d1 <= accrued d d2). { unfold accrued, debt. rewrite S2, U2. 
    assert (cdiv (rd_d_supply d * rd_d_rate d1) 1000000000 <= cdiv (rd_d_supply d * rd_d_rate d2) 1000000000); [|lia].
    apply cdiv_mono; [lia|]. pose proof (ro_ds _ W). nia. }
  nia.
Qed.

(** how a transaction can change the set and configuration of the reserves *)
Lemma step_res_cfg w o out w' a : reachable w -> exec w o = Ok (out, w') -> ps_init (pool w a) = true ->
  (forall r d', reserve w a r = None -> reserve w' a r = Some d' -> rd_credit d' = 0 /\ rd_last_time d' = w_now w /\ rd_ok d') /\
  (forall r cfg, ps_rcfg (pool w a) !! r = Some cfg ->
     ps_rcfg (pool w' a) !! r = Some cfg \/ exists d', reserve w' a r = Some d' /\ rd_last_time d' = w_now w).
Proof.
  intros Hr H Ei. pose proof (reachable_good _ _ Hr Ei) as G.
  assert (ps_rdata (pool w' a) = ps_rdata (pool w a) -> ps_rcfg (pool w' a) = ps_rcfg (pool w a) ->
    (forall r d', reserve w a r = None -> reserve w' a r = Some d' -> rd_credit d' = 0 /\ rd_last_time d' = w_now w /\ rd_ok d') /\
    (forall r cfg, ps_rcfg (pool w a) !! r = Some cfg ->
     ps_rcfg (pool w' a) !! r = Some cfg \/ exists d', reserve w' a r = Some d' /\ rd_last_time d' = w_now w)) as Hsame.
  { intros E1 E2. unfold reserve. rewrite E1, E2. split; [congruence|by left]. }
  apply (exec_pool _ _ _ _ a) in H.
  destruct H as [o out w' H Hno|sg po out px w' Hsg Hty Hp H Hw' _ _|sg admin salt orc rate mp w' -> Hn _ _ H|t u w' H|q w' H].
  - apply Hsame; by rewrite H.
  - pose proof (p_exec_data _ _ (mkPX (pool w a) (w_ext w)) _ _ _ G Hty H) as Hdd. simpl in Hdd.
    destruct Hdd as [(Hm & ls & T)|[(b & -> & Hs)|(Hmv & _ & Hk)]].
    + rewrite <- Hw' in T. pose proof (ptrace_cfg _ _ _ _ T) as (_ & _ & _ & _ & _ & _ & E & _).
      pose proof (ptrace_good _ _ _ _ G T) as G'. split; [|intros r cfg Hc; left; by rewrite E].
      intros r d' Hn Hd'. exfalso. destruct (proj2 (gd_dom _ G' r) (ex_intro _ _ Hd')) as [cfg Hc]. rewrite E in Hc.
      destruct (proj1 (gd_dom _ G r) (ex_intro _ _ Hc)) as [d Hd]. unfold reserve in Hn. congruence.
    + unfold reserve. rewrite Hw'. destruct Hs as (cfg' & -> & _ & _ & _ & _ & _ & _ & _ & _ & _ & [(Hno & _ & _ & Hrd)|(cfg0 & d0 & d' & Hc0 & Hd0 & _ & _ & _ & Hac & m & Hm & Hrd)]); rewrite Hrd.
      * split.
        -- intros r d' E1 E2. apply lookup_insert_Some in E2 as [[-> <-]|[_ E2]]; [|congruence]. simpl.
           split; [done|]. split; [done|]. constructor; simpl; vals; lia.
        -- intros r cfg Hc. left. rewrite lookup_insert_ne; [done|congruence].
      * split.
        -- intros r d1 E1 E2. apply lookup_insert_Some in E2 as [[-> <-]|[_ E2]]; congruence.
        -- intros r cfg Hc. destruct (decide (b = r)) as [->|]; [right|left; by rewrite lookup_insert_ne].
           rewrite lookup_insert. eexists. split; [done|]. simpl.
           destruct (accrue_spec _ _ _ _ _ (good_rd _ _ _ G Hd0) (cw_valid _ (gd_cfg _ G) _ _ Hc0) (cw_rate _ (gd_cfg _ G)) Hac) as (_ & _ & _ & E & _). exact E.
    + destruct Hk as (E1 & _ & E2 & _). apply Hsame; by rewrite Hw'.
  - exfalso. unfold pool in G. rewrite Hn in G. apply gd_init in G. discriminate.
  - apply Hsame; by rewrite H.
  - apply Hsame; by rewrite H.
Qed.

(** what a sequence of interest fills sells and what it leaves never exceed the lot *)
Definition lot_of (o : option Auction) (r : Addr) : Z := match o with Some au => amount_at (au_lot au) r | None => 0 end.
Lemma amount_omap (f : Z -> option Z) (m : gmap Addr Z) r : amount_at (omap f m) r = default 0 (m !! r ≫= f).
Proof. unfold amount_at. by rewrite lookup_omap. Qed.
Lemma fill_lot au pct age r : 1 <= pct <= 100 -> 0 <= age -> 0 <= amount_at (au_lot au) r ->
  0 <= amount_at (au_lot (filled au pct age)) r /\ 0 <= lot_of (remainder au pct) r /\
  amount_at (au_lot (filled au pct age)) r + lot_of (remainder au pct) r <= amount_at (au_lot au) r.
Proof.
  intros Hp Ha Hn. destruct (share_range age Ha) as [_ Hs].
  assert (0 <= amount_at (au_lot (filled au pct age)) r /\ 
    amount_at (au_lot (filled au pct age)) r + amount_at (omap (fun v => positive (v - lot_part v pct)) (au_lot au)) r <= amount_at (au_lot au) r /\
    0 <= amount_at (omap (fun v => positive (v - lot_part v pct)) (au_lot au)) r) as (H1 & H2 & H3).
  { unfold filled. cbn [au_lot]. rewrite !amount_omap. unfold amount_at in Hn |- *. destruct (au_lot au !! r) as [v|]; cbn in Hn |- *; [|lia].
    unfold positive, handed, lot_part.
    pose proof (fdiv_spec (v * pct) 100 ltac:(lia)). set (lp := v * pct / 100) in *.
    pose proof (fdiv_spec (lp * lot_share age) 10000000 ltac:(lia)). set (h := lp * lot_share age / 10000000) in *.
    assert (0 <= lp <= v) by nia. assert (0 <= h <= lp) by nia. destruct (Z.ltb_spec 0 h), (Z.ltb_spec 0 (v - lp)); simpl; lia. }
  assert (lot_of (remainder au pct) r = amount_at (omap (fun v => positive (v - lot_part v pct)) (au_lot au)) r) as E.
  { unfold remainder, lot_of. destruct (bool_decide (omap _ (au_lot au) = ∅) && _) eqn:Eb; [|done].
    apply andb_true_iff in Eb as [Eb _]. apply bool_decide_eq_true in Eb. rewrite Eb. done. }
  rewrite E. lia.
Qed.
Lemma sold_bound from seq b qs r : forall A,
  (forall u, u <> b -> A u = None) -> 0 <= lot_of (A b) r ->
  (forall q, q ∈ qs -> rq_type q = 8 -> 1 <= percent q <= 100 /\ (forall au, A b = Some au -> au_block au <= seq)) ->
  0 <= sold A from seq qs r /\ 0 <= lot_of (foldl (after_request 2 b from) (A b) qs) r /\
  sold A from seq qs r + lot_of (foldl (after_request 2 b from) (A b) qs) r <= lot_of (A b) r.
Proof.
  induction qs as [|q qs IH]; intros A Hn H0 Hp; [simpl; lia|].
  cbn [sold foldl].
  assert (0 <= (if rq_type q =? 8 then match A (rq_addr q) with Some au => amount_at (au_lot (filled au (percent q) (seq - au_block au))) r | None => 0 end else 0) /\
    0 <= lot_of (after_request 2 b from (A b) q) r /\
    (if rq_type q =? 8 then match A (rq_addr q) with Some au => amount_at (au_lot (filled au (percent q) (seq - au_block au))) r | None => 0 end else 0) +
    lot_of (after_request 2 b from (A b) q) r <= lot_of (A b) r) as Hq.
  { unfold after_request. change (6 + 2) with 8. change (2 =? 0) with false. rewrite andb_false_r. cbn [andb].
    destruct (Z.eqb_spec (rq_type q) 8) as [Ht|]; cbn [andb]; [|lia].
    destruct (Z.eqb_spec (rq_addr q) b) as [->|Hne].
    - destruct (A b) as [au|] eqn:EA; [|cbn; lia]. destruct (Hp q ltac:(left) Ht) as [Hp1 Hb]. specialize (Hb _ eq_refl).
      destruct (fill_lot au (percent q) (seq - au_block au) r) as (L1 & L2 & L3); [exact Hp1|lia|exact H0|].
      change (Some au ≫= fun au0 => remainder au0 (percent q)) with (remainder au (percent q)).
      change (lot_of (Some au) r) with (amount_at (au_lot au) r). split; [exact L1|]. split; [exact L2|exact L3].
    - rewrite (Hn _ Hne). lia. }
  destruct (IH (fun u => after_request 2 u from (A u) q)) as (I1 & I2 & I3).
  - intros u Hu. rewrite (Hn u Hu). unfold after_request. destruct ((rq_type q =? 6 + 2) && (rq_addr q =? u)); [done|]. by destruct ((rq_type q =? 9) && (2 =? 0) && (from =? u)).
  - lia.
  - intros q' Hq' Ht'. destruct (Hp q' ltac:(by right) Ht') as [Hp1 Hb]. split; [done|].
    intros au' Hau'. assert (foldl (after_request 2 b from) (A b) [q] = Some au') as Hf by exact Hau'.
    destruct (A b) as [au|] eqn:EA; [|by rewrite fold_none in Hf]. apply fold_block in Hf as (au1 & [= <-] & <-). by apply Hb.
  - cbv beta in I2, I3. lia.
Qed.

(** ** The invariant *)
Record credit_ok (w : World) (a : Addr) : Prop := {
  ck_only : forall u au, auction w a 2 u = Some au -> ps_init (pool w a) = true /\ u = ps_backstop (pool w a);
  ck_lot : forall u r, 0 <= lot_of (auction w a 2 u) r /\ (reserve w a r = None -> lot_of (auction w a 2 u) r = 0);
  ck_cred : forall r d, reserve w a r = Some d -> 0 <= rd_credit d;
  ck_cover : forall u r d cfg t rate d', reserve w a r = Some d -> ps_rcfg (pool w a) !! r = Some cfg ->
    w_now w <= t -> take_rate w a <= rate < 10000000 -> accrue t rate cfg d = Ok d' -> lot_of (auction w a 2 u) r <= rd_credit d' }.

Lemma uninit_step w o out w' a : exec w o = Ok (out, w') -> ps_init (pool w a) = false -> ps_auct (pool w a) = ∅ -> ps_rdata (pool w a) = ∅ ->
  ps_auct (pool w' a) = ∅ /\ ps_rdata (pool w' a) = ∅.
Proof.
  intros H Hi E1 E2. apply (exec_pool _ _ _ _ a) in H.
  destruct H as [o out w' H Hno|sg po out px w' Hsg Hty Hp H Hw' _ _|sg admin salt orc rate mp w' -> Hn _ _ H|t u w' H|q w' H].
  - by rewrite H.
  - rewrite Hw'. destruct po; simpl in H; rewrite ?Hi in H; try discriminate. unfold on_pool in H. simpl in H. apply bind_ok in H as (p1 & E & H).
    injection H as <- <-. simpl. apply initialize_spec in E as (_ & _ & _ & _ & ->). simpl. done.
  - apply initialize_spec in H as (_ & _ & _ & _ & ->). simpl. done.
  - rewrite H. simpl. rewrite E1. split; [apply delete_empty|done].
  - by rewrite H.
Qed.

Definition fresh_ok (w : World) (a : Addr) : Prop := ps_init (pool w a) = false -> ps_auct (pool w a) = ∅ /\ ps_rdata (pool w a) = ∅.
Lemma no_auct_credit_ok w a : (forall u, auction w a 2 u = None) -> (forall r d, reserve w a r = Some d -> 0 <= rd_credit d) -> reachable w -> credit_ok w a.
Proof.
  intros Hn Hc Hr. constructor.
  - intros u au E. rewrite Hn in E. discriminate.
  - intros u r. rewrite Hn. done.
  - exact Hc.
  - intros u r d cfg t rate d' Hd Hcf _ Hra Hac. rewrite Hn. simpl. pose proof (init_of_data _ _ _ _ Hr Hd) as G.
    pose proof (cw_rate _ (gd_cfg _ G)) as Hrate. unfold take_rate in Hra. assert (0 <= rate < 10000000) as Hrr by lia.
    destruct (accrue_spec _ _ _ _ _ (good_rd _ _ _ G Hd) (cw_valid _ (gd_cfg _ G) _ _ Hcf) Hrr Hac) as (_ & _ & _ & _ & _ & _ & A1 & A2 & _).
    specialize (Hc _ _ Hd). assert (0 <= accrued d d' * rate / 10000000) by (apply Z.div_pos; nia). lia.
Qed.

Lemma credit_step w o out w' a : reachable w -> ps_init (pool w a) = true -> credit_ok w a -> exec w o = Ok (out, w') ->
  (auction w a 2 (ps_backstop (pool w a)) <> None -> take_rate w a <= take_rate w' a) -> credit_ok w' a.
Proof.
  intros Hr Hi [Q1 Q2 Q3 Q4] H Hra. pose proof (reachable_good _ _ Hr Hi) as G. pose proof (reachable_step _ _ _ _ Hr H) as Hr'.
  destruct (step_res_cfg _ _ _ _ a Hr H Hi) as [Hnew Hcfg]. pose proof (exec_now _ _ _ _ H) as Hnow.
  destruct (C32_admin_settings _ _ _ _ a H Hi) as (_ & _ & _ & Hbs & _ & _).
  assert (ps_init (pool w' a) = true) as Hi'. { eapply init_step; [by apply exec_pool|done]. }
  pose proof (reachable_good _ _ Hr' Hi') as G'.
  set (b := ps_backstop (pool w a)) in *.
  (* what the transaction sells *)
  assert (forall r, 0 <= credit_sold w o a r /\ 0 <= lot_of (auction w' a 2 b) r /\
    ((forall au, ~ (auction w a 2 b = None /\ auction w' a 2 b = Some au)) -> credit_sold w o a r + lot_of (auction w' a 2 b) r <= lot_of (auction w a 2 b) r) /\
    (auction w a 2 b = None -> credit_sold w o a r = 0)) as Hsold.
  { intros r. assert ((exists sg from sp to qs, o = OPool sg a (PSubmit from sp to qs)) \/ credit_sold w o a r = 0) as [(sg & from & sp & to & qs & ->)|Hz].
    { destruct o as [|sg a' po| | | | | | | |]; try (by right). destruct po; try (by right). cbn [credit_sold].
      destruct (Z.eqb_spec a' a) as [->|]; [left; eauto 10|by right]. }
    - cbn [credit_sold]. rewrite Z.eqb_refl. rewrite (C18_auctions_after_submit _ _ _ _ _ _ _ _ _ 2 b Hr H ltac:(lia)).
      destruct (sold_bound from (w_seq w) b qs r (auction w a 2)) as (S1 & S2 & S3).
      + intros u Hu. destruct (auction w a 2 u) eqn:Eu; [|done]. destruct (Q1 _ _ Eu). done.
      + apply Q2.
      + intros q Hq Ht. assert (6 <= rq_type q <= 8) as Ht8 by lia. split; [exact (C19_percent_in_range _ _ _ _ _ _ _ _ _ q Hr H Hq Ht8)|]. intros au Hau.
        destruct (C21_no_self_fill _ _ _ _ _ _ _ _ _ 2 q Hr H Hq ltac:(lia) ltac:(lia)) as (_ & au' & Hau' & Hbl).
        destruct (Q1 _ _ Hau') as [_ Eb]. rewrite Eb in Hau'. fold b in Hau'. congruence.
      + split; [done|]. split; [done|]. split; [done|]. intros En. rewrite En, fold_none in S3. simpl in S3. lia.
    - rewrite Hz. split; [lia|].
      destruct (auct_step _ _ _ _ a 2 b Hr H ltac:(lia)) as [E|[(-> & E)|[(sg & from & sp & to & qs & -> & E)|(En & au0 & Ho & Hout & E & _)]]].
      + rewrite E. destruct (Q2 b r). split; [done|]. split; [lia|done].
      + rewrite E. simpl. destruct (Q2 b r). split; [lia|]. split; [lia|done].
      + rewrite E. cbn [credit_sold] in Hz. rewrite Z.eqb_refl in Hz. destruct (sold_bound from (w_seq w) b qs r (auction w a 2)) as (S1 & S2 & S3).
        * intros u Hu. destruct (auction w a 2 u) eqn:Eu; [|done]. destruct (Q1 _ _ Eu). done.
        * apply Q2.
        * intros q Hq Ht. assert (6 <= rq_type q <= 8) as Ht8 by lia. split; [exact (C19_percent_in_range _ _ _ _ _ _ _ _ _ q Hr H Hq Ht8)|]. intros au Hau.
          destruct (C21_no_self_fill _ _ _ _ _ _ _ _ _ 2 q Hr H Hq ltac:(lia) ltac:(lia)) as (_ & au' & Hau' & Hbl).
          destruct (Q1 _ _ Hau') as [_ Eb]. rewrite Eb in Hau'. fold b in Hau'. congruence.
        * split; [done|]. split; [lia|done].
      + split; [|split; [intros Hno; by destruct (Hno au0)|done]]. rewrite E. simpl.
        destruct Ho as (sg & [(? & _)|[(? & _)|(_ & _ & l & ->)]]); [lia|lia|].
        destruct (C25_creation _ _ _ _ _ _ Hr H) as (au & bid & dec & E1 & _ & _ & _ & _ & Hlot & _). rewrite Hout in E1. injection E1 as <-.
        unfold amount_at. rewrite Hlot. case_bool_decide; [|done]. unfold positive. destruct (Z.ltb_spec 0 (credit_now w a r)); simpl; lia. }
  assert (forall u au, auction w' a 2 u = Some au -> u = b) as Hu.
  { intros u au Hau. destruct (auct_step _ _ _ _ a 2 u Hr H ltac:(lia)) as [E|[(-> & E)|[(sg & from & sp & to & qs & -> & E)|(En & au0 & Ho & Hout & E & _)]]].
    - rewrite E in Hau. by destruct (Q1 _ _ Hau).
    - congruence.
    - rewrite E in Hau. destruct (auction w a 2 u) eqn:Eu; [by destruct (Q1 _ _ Eu)|rewrite fold_none in Hau; discriminate].
    - by destruct Ho as (sg & [(? & _)|[(? & _)|(_ & -> & _)]]); [lia|lia|]. }
  assert (forall u r, u <> b -> lot_of (auction w' a 2 u) r = 0) as Hother.
  { intros u r Hn. destruct (auction w' a 2 u) eqn:Eu; [|done]. by destruct (Hn (Hu _ _ Eu)). }
  (* opening an auction: nothing else changes *)
  destruct (decide (auction w a 2 b = None /\ auction w' a 2 b <> None)) as [[En Es]|Hop].
  { destruct (auct_step _ _ _ _ a 2 b Hr H ltac:(lia)) as [E|[(-> & E)|[(sg & from & sp & to & qs & -> & E)|(_ & au0 & Ho & Hout & E & _)]]]; [congruence|congruence|rewrite En, fold_none in E; congruence|].
    destruct Ho as (sg & [(? & _)|[(? & _)|(_ & _ & l & ->)]]); [lia|lia|].
    pose proof (C25_creation _ _ _ _ _ _ Hr H) as Hcr. cbv zeta in Hcr. destruct Hcr as (au & bid & dec & E1 & _ & _ & _ & _ & Hlot & _ & Hres & _ & _ & _ & _ & _ & _ & Hsame).
    rewrite Hout in E1. injection E1 as <-.
    assert (pool w' a = set_auction (pool w a) 2 b au0) as Hp'.
    { apply exec_opool in H as (_ & _ & _ & px & H & Hp' & _). simpl in H. rewrite Hi in H. simpl in H.
      apply bind_ok in H as ([au p1] & Ec & H). injection H as <- <-. apply create_interest_auct in Ec. simpl in Hp'. injection Hout as ->. rewrite Hp', Ec. done. }
    assert (forall r, lot_of (auction w' a 2 b) r = if bool_decide (r ∈ l) then Z.max 0 (credit_now w a r) else 0) as Hl.
    { intros r. rewrite E. simpl. unfold amount_at. rewrite Hlot. case_bool_decide; [|done]. unfold positive. destruct (Z.ltb_spec 0 (credit_now w a r)); simpl; lia. }
    constructor.
    - intros u au Hau. split; [done|]. rewrite Hbs. by eapply Hu.
    - intros u r. destruct (decide (u = b)) as [->|Hn]; [|rewrite Hother by done; done]. rewrite Hl. case_bool_decide as Hin; [|done]. split; [lia|].
      intros Hno. rewrite Hsame in Hno. destruct (Hres r Hin) as [[d Hd] _]. congruence.
    - intros r d Hd. rewrite Hsame in Hd. by eapply Q3.
    - intros u r d cfg t rate d' Hd Hc Ht Hrr Hac. rewrite Hsame in Hd. rewrite Hp' in Hc. simpl in Hc.
      assert (take_rate w' a = take_rate w a) as Htr. { unfold take_rate. by rewrite Hp'. } rewrite Htr in Hrr.
      pose proof (Q4 b r d cfg t rate d' Hd Hc ltac:(lia) Hrr Hac) as Hge. rewrite En in Hge. simpl in Hge.
      destruct (decide (u = b)) as [->|Hn]; [|rewrite Hother by done; exact Hge]. rewrite Hl. case_bool_decide; [|exact Hge].
      apply Z.max_lub; [exact Hge|]. unfold credit_now, data_at. rewrite Hc. unfold reserve in Hd. rewrite Hd.
      pose proof (cw_rate _ (gd_cfg _ G)) as Hrate. unfold take_rate in Hrr.
      destruct (accrue (w_now w) (pc_bstop_rate (ps_config (pool w a))) cfg d) as [d1|] eqn:E1.
      + eapply (accrue_credit_mono (w_now w) t (pc_bstop_rate (ps_config (pool w a))) rate cfg d d1 d'); try done; [exact (good_rd _ _ _ G Hd)|exact (cw_valid _ (gd_cfg _ G) _ _ Hc)|lia|lia|lia].
      + assert (0 <= rate < 10000000) as Hr0 by lia.
        destruct (accrue_spec _ _ _ _ _ (good_rd _ _ _ G Hd) (cw_valid _ (gd_cfg _ G) _ _ Hc) Hr0 Hac) as (_ & _ & _ & _ & _ & _ & A1 & A2 & _).
        assert (0 <= accrued d d' * rate / 10000000) by (apply Z.div_pos; nia). lia. }
  assert (forall r, 0 <= credit_sold w o a r /\ 0 <= lot_of (auction w' a 2 b) r /\ credit_sold w o a r + lot_of (auction w' a 2 b) r <= lot_of (auction w a 2 b) r) as Hs.
  { intros r. destruct (Hsold r) as (H1 & H2 & H3 & _). split; [done|]. split; [done|]. apply H3. intros au [E1 E2]. apply Hop. split; [done|congruence]. }
  clear Hsold.
  assert (forall r, lot_of (auction w' a 2 b) r = 0 \/ take_rate w a <= take_rate w' a) as Hra'.
  { intros r. destruct (auction w a 2 b) eqn:Eb; [right; by apply Hra|]. left. destruct (Hs r) as (? & ? & ?). simpl in *. lia. }
  (* the stored reserve after the transaction *)
  assert (forall r d', reserve w' a r = Some d' -> 0 <= rd_credit d' /\
    ((rd_last_time d' = w_now w /\ lot_of (auction w' a 2 b) r <= rd_credit d') \/
     (reserve w a r = Some d' /\ ps_rcfg (pool w' a) !! r = ps_rcfg (pool w a) !! r))) as Hst.
  { intros r d' Hd'. destruct (Hs r) as (S1 & S2 & S3). destruct (reserve w a r) as [d|] eqn:Hd.
    - destruct (proj2 (gd_dom _ G r) (ex_intro _ _ Hd)) as [cfg Hc].
      destruct (step_reserve _ _ _ _ _ _ _ _ Hr H Hc Hd) as (d1 & d0 & Hd1 & Hd0 & _ & _ & _ & E4 & E5 & E6).
      assert (d1 = d') by congruence. subst d1.
      destruct (decide (rd_last_time d' = w_now w)) as [Hl|Hl].
      + assert (accrue (w_now w) (pc_bstop_rate (ps_config (pool w a))) cfg d = Ok d0) as Hac.
        { destruct Hd0 as [->|?]; [|done]. unfold accrue. by rewrite <- E4, Hl, Z.eqb_refl. }
        pose proof (cw_rate _ (gd_cfg _ G)) as Hrate.
        pose proof (Q4 b r d cfg (w_now w) _ d0 Hd Hc (Z.le_refl _) (conj (Z.le_refl _) (proj2 Hrate)) Hac) as Hge.
        split; [lia|]. left. split; [done|lia].
      + assert (d = d') as <- by (symmetry; exact (E6 Hl)). split; [exact (Q3 _ _ Hd)|]. right. split; [done|].
        destruct (Hcfg _ _ Hc) as [E|(d2 & Hd2 & Hl2)]; [by rewrite E, Hc|]. exfalso. assert (d2 = d) by congruence. congruence.
    - destruct (Hnew _ _ Hd Hd') as (-> & Hl & _). split; [lia|]. left. split; [done|].
      destruct (Q2 b r) as [_ Hz]. rewrite (Hz Hd) in S3. lia. }
  constructor.
  - intros u au Hau. split; [done|]. rewrite Hbs. by eapply Hu.
  - intros u r. destruct (decide (u = b)) as [->|Hn]; [|rewrite Hother by done; done]. destruct (Hs r) as (S1 & S2 & S3). split; [done|].
    intros Hno. destruct (reserve w a r) as [d|] eqn:Hd.
    + destruct (proj2 (gd_dom _ G r) (ex_intro _ _ Hd)) as [cfg Hc].
      destruct (step_reserve _ _ _ _ _ _ _ _ Hr H Hc Hd) as (d1 & d0 & Hd1 & _). congruence.
    + destruct (Q2 b r) as [_ Hz]. rewrite (Hz Hd) in S3. lia.
  - intros r d Hd. by destruct (Hst _ _ Hd).
  - intros u r d cfg t rate d' Hd Hc Ht Hrr Hac. destruct (Hst _ _ Hd) as [Hpos Hc1].
    pose proof (cw_rate _ (gd_cfg _ G')) as Hrate. unfold take_rate in Hrr. assert (0 <= rate < 10000000) as Hr0 by lia.
    destruct (accrue_spec _ _ _ _ _ (good_rd _ _ _ G' Hd) (cw_valid _ (gd_cfg _ G') _ _ Hc) Hr0 Hac) as (_ & _ & _ & _ & _ & _ & A1 & A2 & _).
    assert (0 <= accrued d d' * rate / 10000000) by (apply Z.div_pos; nia).
    destruct (decide (u = b)) as [->|Hn]; [|rewrite Hother by done; lia].
    destruct Hc1 as [[_ Hle]|[Hd0 Hceq]]; [lia|]. rewrite Hceq in Hc. destruct (Hs r) as (S1 & S2 & S3).
    destruct (Hra' r) as [->|Hle]; [lia|]. unfold take_rate in Hle.
    pose proof (Q4 b r d cfg t rate d' Hd0 Hc ltac:(lia) ltac:(unfold take_rate; lia) Hac). lia.
Qed.

(** The take rate of the pool at [a] is never lowered while an interest auction is open. *)
Fixpoint rate_kept (a : Addr) (w : World) (l : list Op) : Prop :=
  match l with
  | [] => True
  | o :: l => (auction w a 2 (ps_backstop (pool w a)) <> None -> take_rate w a <= take_rate (step w o) a) /\ rate_kept a (step w o) l
  end.

Lemma credit_run a l : forall w, reachable w -> credit_ok w a -> fresh_ok w a -> rate_kept a w l -> credit_ok (run w l) a.
Proof.
  induction l as [|o l IH]; intros w Hr Hc Hf Hk; [done|]. destruct Hk as [Hk1 Hk2]. simpl. unfold step in Hk1, Hk2 |- *.
  destruct (exec w o) as [[out w']|] eqn:E; [|by apply IH]. pose proof (reachable_step _ _ _ _ Hr E) as Hr'.
  assert (credit_ok w' a /\ fresh_ok w' a) as [H1 H2]; [|by apply IH].
  destruct (ps_init (pool w a)) eqn:Hi.
  - split; [exact (credit_step _ _ _ _ _ Hr Hi Hc E Hk1)|]. intros Hn. exfalso. apply (init_step _ a) with (1 := exec_pool _ _ _ _ a E) in Hi. congruence.
  - destruct (Hf Hi) as [F1 F2]. destruct (uninit_step _ _ _ _ a E Hi F1 F2) as [U1 U2]. split; [|done].
    apply no_auct_credit_ok; [intros u; unfold auction; by rewrite U1|intros r d; unfold reserve; by rewrite U2|done].
Qed.

(** C25: the credit of a reserve is never negative, as long as the admin does not lower the
    take rate while an interest auction is open *)
Theorem C25_credit_never_negative : forall w0 l a r d,
  initial w0 -> rate_kept a w0 l -> reserve (run w0 l) a r = Some d -> 0 <= rd_credit d.
Proof.
  intros w0 l a r d H0 Hk Hd. eapply ck_cred; [|exact Hd].
  assert (pool w0 a = fresh_pool) as Hp. { destruct H0 as (? & ? & ? & ? & ? & -> & _). done. }
  apply credit_run; [by apply reachable_initial| |intros _; by rewrite Hp|done].
  apply no_auct_credit_ok; [intros u; unfold auction; by rewrite Hp|intros r' d'; unfold reserve; by rewrite Hp|by apply reachable_initial].
Qed.
