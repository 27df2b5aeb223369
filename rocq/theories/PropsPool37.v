(** * C85: value is conserved in every reserve, up to a dust that is bounded per request *)
From Verif Require Import Base Types Token Emitter Factory Backstop PoolReserve PoolUser PoolHealth
  PoolAuction PoolSubmit PoolEmis PoolAdmin World Facts XMove Spec FrameFacts PoolFrame PoolCfg PoolAccrue PoolTrace PoolInv AuctionFacts
  PoolSim PoolReq PoolHF PoolOps PoolLiq PoolReach PoolTx BackMoves PropsBackstop PropsPool1 PropsPool3 PropsPool6 PoolSolv PropsPool11 PropsPool19 Events PropsEvents1 PropsEvents2 PropsEvents3.

(** ** A reserve with its interest of the ledger still to come *)
Definition due (now : Z) (d : ResData) : Z := if rd_last_time d =? now then 0 else rd_b_supply d + 1000000000.
Definition wup (now : Z) (d : ResData) : Z := worth d + due now d.
Definition wup_at (now : Z) (p : PoolSt) (r : Addr) : Z := match ps_rdata p !! r with Some d => wup now d | None => 0 end.
Lemma due_nonneg now d : rd_ok d -> 0 <= due now d.
Proof. intros W. pose proof (ro_bs _ W). unfold due. destruct (_ =? _); lia. Qed.

Lemma accrue_wup now rate cfg d d' : rd_ok d -> cfg_bounds cfg -> 0 <= rate < 10000000 -> accrue now rate cfg d = Ok d' -> wup now d' <= wup now d.
Proof.
  intros W Hc Hr H. destruct (accrue_spec _ _ _ _ _ W Hc Hr H) as (_ & S1 & S2 & S3 & _ & _ & _ & _ & _ & _ & Hid).
  pose proof (accrue_kept _ _ _ _ _ W Hc Hr H) as K. unfold wup, due. rewrite S3, Z.eqb_refl.
  destruct (Z.eqb_spec (rd_last_time d) now) as [He|He].
  - rewrite Hid by (right; lia). unfold worth, debt, claims9. simpl. lia.
  - unfold worth, accrued in *. lia.
Qed.

Lemma ptrace_up now p ls p' r d : good p -> ptrace now p ls p' -> ps_rdata p !! r = Some d ->
  exists d1 d', ps_rdata p' !! r = Some d' /\ wup now d1 <= wup now d /\ rd_ok d1 /\
    rd_d_supply d1 = rd_d_supply d /\ rd_b_supply d1 = rd_b_supply d /\ rd_d_rate d <= rd_d_rate d1 /\ rd_b_rate d <= rd_b_rate d1 /\
    rd_d_rate d' = rd_d_rate d1 /\ rd_b_rate d' = rd_b_rate d1 /\ rd_last_time d' = rd_last_time d1 /\
    rd_d_supply d' = rd_d_supply d + sumz (dd r) ls /\ rd_b_supply d' = rd_b_supply d + sumz (db r) ls /\
    rd_credit d' = rd_credit d1 - sumz (dc r) ls /\ (rd_last_time d = now -> d1 = d).
Proof.
  intros G T. revert d G. induction T as [p|p l p1 ls p2 M T IH]; intros d G Hd.
  - exists d, d. rewrite !sumz_nil. pose proof (good_rd _ _ _ G Hd). repeat split; try done; try lia; apply H.
  - pose proof (pmove_good _ _ _ _ G M) as G1. rewrite !sumz_cons.
    assert (ps_rdata p1 !! r = Some d -> dd r l = 0 -> db r l = 0 -> dc r l = 0 ->
      exists d1 d', ps_rdata p2 !! r = Some d' /\ wup now d1 <= wup now d /\ rd_ok d1 /\
        rd_d_supply d1 = rd_d_supply d /\ rd_b_supply d1 = rd_b_supply d /\ rd_d_rate d <= rd_d_rate d1 /\ rd_b_rate d <= rd_b_rate d1 /\
        rd_d_rate d' = rd_d_rate d1 /\ rd_b_rate d' = rd_b_rate d1 /\ rd_last_time d' = rd_last_time d1 /\
        rd_d_supply d' = rd_d_supply d + (dd r l + sumz (dd r) ls) /\ rd_b_supply d' = rd_b_supply d + (db r l + sumz (db r) ls) /\
        rd_credit d' = rd_credit d1 - (dc r l + sumz (dc r) ls) /\ (rd_last_time d = now -> d1 = d)) as Hsame.
    { intros H1 -> -> ->. destruct (IH _ G1 H1) as (d1 & d' & I). exists d1, d'. exact I. }
    destruct M as [a cfg d0 d0' Hc Hd0 Hac|k u a dl cfg d0 n p1 Hc Hd0 Hl Hdl He Hb1 Hb2|a n d0 Hd0 Hl Hb|k u a cfg d0 cl n p1 Hc Hd0 He|u|m].
    + destruct (decide (a = r)) as [->|Hne]; [|apply Hsame; try done; simpl; by rewrite lookup_insert_ne].
      rewrite Hd in Hd0. injection Hd0 as <-.
      destruct (accrue_spec _ _ _ _ _ (good_rd _ _ _ G Hd) (cw_valid _ (gd_cfg _ G) _ _ Hc) (cw_rate _ (gd_cfg _ G)) Hac) as (Hok & S1 & S2 & S3 & R1 & R2 & _ & _ & _ & _ & Hid).
      pose proof (accrue_wup _ _ _ _ _ (good_rd _ _ _ G Hd) (cw_valid _ (gd_cfg _ G) _ _ Hc) (cw_rate _ (gd_cfg _ G)) Hac) as Hw.
      destruct (IH d0' G1) as (d1 & d' & I1 & I2 & I3 & I4 & I5 & J1 & J2 & I6 & I7 & J3 & I8 & I9 & I10 & I11); [simpl; by rewrite lookup_insert|].
      specialize (I11 S3). subst d1. exists d0', d'. simpl. rewrite ?S1, ?S2 in *. repeat split; try done; try lia; try apply Hok.
      intros Hlt. rewrite Hid by (right; lia). destruct d; simpl in *; by subst.
    + pose proof (emis_rdata _ _ (p_emissions_emis _ _ _ _ _ _ _ _ _ _ He)) as Hrd.
      destruct (decide (a = r)) as [->|Hne].
      2:{ apply Hsame; [simpl; by rewrite lookup_insert_ne| | |done]; simpl; destruct k; try done; by rewrite (proj2 (Z.eqb_neq a r)). }
      rewrite Hd in Hd0. injection Hd0 as <-.
      destruct (IH (set_sup_k k (sup_k k d + dl) d) G1) as (d1 & d' & I1 & I2 & I3 & I4 & I5 & J1 & J2 & I6 & I7 & J3 & I8 & I9 & I10 & I11); [simpl; by rewrite lookup_insert|].
      assert (rd_last_time (set_sup_k k (sup_k k d + dl) d) = now) as Hlt by (destruct k; done).
      specialize (I11 Hlt). subst d1. exists d, d'.
      pose proof (good_rd _ _ _ G Hd) as Hok.
      destruct k; simpl in *; rewrite ?Z.eqb_refl; repeat split; try done; try lia; apply Hok.
    + destruct (decide (a = r)) as [->|Hne].
      2:{ apply Hsame; [simpl; by rewrite lookup_insert_ne|done|done|]; simpl; by rewrite (proj2 (Z.eqb_neq a r)). }
      rewrite Hd in Hd0. injection Hd0 as <-.
      destruct (IH (d <| rd_credit := rd_credit d - n |>) G1) as (d1 & d' & I1 & I2 & I3 & I4 & I5 & J1 & J2 & I6 & I7 & J3 & I8 & I9 & I10 & I11); [simpl; by rewrite lookup_insert|].
      specialize (I11 Hl). subst d1. exists d, d'. pose proof (good_rd _ _ _ G Hd) as Hok.
      simpl in *; rewrite ?Z.eqb_refl; repeat split; try done; try lia; apply Hok.
    + pose proof (emis_rdata _ _ (p_emissions_emis _ _ _ _ _ _ _ _ _ _ He)) as Hrd. apply Hsame; try done. by rewrite Hrd.
    + by apply Hsame.
    + by apply Hsame.
Qed.

(** rates never fall along a trace *)
Definition rates (p : PoolSt) (r : Addr) : Z * Z := match ps_rdata p !! r with Some d => (rd_b_rate d, rd_d_rate d) | None => (0, 0) end.
Definition rates_le (a b : Z * Z) : Prop := fst a <= fst b /\ snd a <= snd b.
Lemma ptrace_rates now p ls p' r : good p -> ptrace now p ls p' -> rates_le (rates p r) (rates p' r).
Proof.
  intros G T. unfold rates. destruct (ps_rdata p !! r) as [d|] eqn:E.
  - destruct (ptrace_up _ _ _ _ _ _ G T E) as (d1 & d' & I1 & I2 & I3 & I4 & I5 & J1 & J2 & I6 & I7 & _). rewrite I1. unfold rates_le. simpl. lia.
  - rewrite (ptrace_none _ _ _ _ _ G T E). unfold rates_le. simpl. lia.
Qed.
Lemma ptrace_wup now p ls p' r : good p -> ptrace now p ls p' -> sumz (dd r) ls = 0 -> sumz (db r) ls = 0 ->
  wup_at now p' r <= wup_at now p r + 1000000000 * (if decide (is_Some (ps_rdata p !! r)) then sumz (dc r) ls else 0).
Proof.
  intros G T Hdd Hdb. unfold wup_at. destruct (ps_rdata p !! r) as [d|] eqn:E.
  - destruct (ptrace_up _ _ _ _ _ _ G T E) as (d1 & d' & I1 & I2 & I3 & I4 & I5 & _ & _ & I6 & I7 & J3 & I8 & I9 & I10 & _).
    rewrite I1, decide_True by done. unfold wup, due, worth, debt, claims9 in *. rewrite I4, I5 in I2. rewrite I6, I7, I8, I9, I10, J3, Hdd, Hdb, !Z.add_0_r. lia.
  - rewrite (ptrace_none _ _ _ _ _ G T E), decide_False; [lia|]. by intros [? ?].
Qed.

(** ** A plain request *)
Lemma cdiv_sub_up a b c : 0 < c -> cdiv (a - b) c <= cdiv a c - cdiv b c + 1.
Proof. intros Hc. pose proof (cdiv_spec (a - b) c Hc). pose proof (cdiv_spec a c Hc). pose proof (cdiv_spec b c Hc). nia. Qed.

(** what a request of the given kind may leave behind, in billionths of a token *)
Definition plain_dust (t : Z) (brate drate : Z) : Z := if t <=? 3 then brate else 2 * drate.

Lemma flow_up t d cur amt dl pin pout : rd_ok d -> 0 <= t <= 5 -> 0 <= amt -> flow t d cur amt = (dl, pin, pout) ->
  worth (set_sup_k (req_kind t) (sup_k (req_kind t) d + dl) d) + 1000000000 * (pin - pout) <= worth d + plain_dust t (rd_b_rate d) (rd_d_rate d).
Proof.
  intros W Ht Ha H. pose proof (ro_d _ W) as Hdr. pose proof (ro_b _ W) as Hbr. change SCALAR_9 with 1000000000 in Hdr, Hbr.
  assert (t = 0 \/ t = 1 \/ t = 2 \/ t = 3 \/ t = 4 \/ t = 5) as [->|[->|[->|[->|[->| ->]]]]] by lia;
    unfold flow in H; cbn [Z.eqb Pos.eqb orb] in H; cbv zeta in H; unfold plain_dust, worth, debt, claims9, req_kind; cbn [Z.leb Z.compare Pos.compare Pos.compare_cont];
    cbn [set_sup_k sup_k rd_d_supply rd_b_supply rd_d_rate rd_b_rate rd_credit set].
  - injection H as <- <- <-. pose proof (fdiv_spec (amt * 1000000000) (rd_b_rate d) ltac:(lia)). simpl. nia.
  - pose proof (cdiv_spec (amt * 1000000000) (rd_b_rate d) ltac:(lia)). pose proof (fdiv_spec (cur * rd_b_rate d) 1000000000 ltac:(lia)).
    destruct (cur <? _); injection H as <- <- <-; simpl; nia.
  - injection H as <- <- <-. pose proof (fdiv_spec (amt * 1000000000) (rd_b_rate d) ltac:(lia)). simpl. nia.
  - pose proof (cdiv_spec (amt * 1000000000) (rd_b_rate d) ltac:(lia)). pose proof (fdiv_spec (cur * rd_b_rate d) 1000000000 ltac:(lia)).
    destruct (cur <? _); injection H as <- <- <-; simpl; nia.
  - injection H as <- <- <-. pose proof (cdiv_spec (amt * 1000000000) (rd_d_rate d) ltac:(lia)) as Hc. simpl.
    pose proof (cdiv_spec ((rd_d_supply d + cdiv (amt * 1000000000) (rd_d_rate d)) * rd_d_rate d) 1000000000 ltac:(lia)) as H1.
    pose proof (cdiv_spec (rd_d_supply d * rd_d_rate d) 1000000000 ltac:(lia)) as H2. nia.
  - destruct (cur <? _); injection H as <- <- <-; simpl.
    + pose proof (cdiv_sub_up (rd_d_supply d * rd_d_rate d) (cur * rd_d_rate d) 1000000000 ltac:(lia)) as Hs.
      replace ((rd_d_supply d + - cur) * rd_d_rate d) with (rd_d_supply d * rd_d_rate d - cur * rd_d_rate d) by lia. lia.
    + pose proof (fdiv_spec (amt * 1000000000) (rd_d_rate d) ltac:(lia)).
      pose proof (cdiv_spec ((rd_d_supply d + - (amt * 1000000000 / rd_d_rate d)) * rd_d_rate d) 1000000000 ltac:(lia)) as H1.
      pose proof (cdiv_spec (rd_d_supply d * rd_d_rate d) 1000000000 ltac:(lia)) as H2. nia.
Qed.

(** ** Requests *)
Definition req_dust (r : Addr) (rt : Z * Z) (q : Request) : Z :=
  if rq_type q =? 7 then 1000000000
  else if (rq_type q <=? 5) && (rq_addr q =? r) then plain_dust (rq_type q) (fst rt) (snd rt) else 0.
Lemma req_dust_mono r a b q : rates_le a b -> req_dust r a q <= req_dust r b q.
Proof. intros [H1 H2]. unfold req_dust, plain_dust. destruct (rq_type q =? 7), ((rq_type q <=? 5) && (rq_addr q =? r)), (rq_type q <=? 3); lia. Qed.

Definition phiup (now : Z) (self r : Addr) (s : AS) : Z :=
  wup_at now (as_p s) r + 1000000000 * (balance (x_tok (as_x s)) r self + getz (ac_spender (as_ac s)) r - getz (ac_pool (as_ac s)) r)
  + 1000000000 * burnt self r (x_log (as_x s)).

Lemma after_fill_wup now p t u rem r : wup_at now (after_fill p t u rem) r = wup_at now p r. Proof. by destruct rem. Qed.
Lemma after_fill_rates p t u rem r : rates (after_fill p t u rem) r = rates p r. Proof. by destruct rem. Qed.

Lemma req_dust_nonneg r rt q : 0 <= fst rt -> 0 <= snd rt -> 0 <= req_dust r rt q.
Proof. intros H1 H2. unfold req_dust, plain_dust. destruct (rq_type q =? 7), ((rq_type q <=? 5) && (rq_addr q =? r)), (rq_type q <=? 3); lia. Qed.
Lemma rates_nonneg p r : good p -> 0 <= fst (rates p r) /\ 0 <= snd (rates p r).
Proof.
  intros G. unfold rates. destruct (ps_rdata p !! r) as [d|] eqn:E; [|simpl; lia]. pose proof (good_rd _ _ _ G E) as W.
  pose proof (ro_d _ W) as Hdr. pose proof (ro_b _ W) as Hbr. change SCALAR_9 with 1000000000 in Hdr, Hbr. simpl. lia.
Qed.

Lemma areq_phiup c self from q s ls s' r :
  areq c self from q s ls s' -> good (as_p s) -> 0 <= rq_amt q -> self < 0 -> from <> self ->
  phiup (c_now c) self r s' <= phiup (c_now c) self r s + req_dust r (rates (as_p s') r) q /\ rates_le (rates (as_p s) r) (rates (as_p s') r).
Proof.
  intros H G Ha Hs Hf. pose proof (areq_trace _ _ _ _ _ _ _ H) as T0. pose proof (ptrace_good _ _ _ _ G T0) as G'.
  split; [|exact (ptrace_rates _ _ _ _ r G T0)]. pose proof (rates_nonneg _ r G') as [N1 N2]. pose proof (req_dust_nonneg r _ q N1 N2) as Hdn.
  destruct H as [L x ac chk cfg d L1 L2 d2 dl pin pout ac' Ht Hc M1 Hd Hfl M2 Hd2 _ _ _ A1 A2
    |L x ac chk au tf rem L1 Ht Hne Hau Hsc T
    |L x ac chk au tf rem L1 L2 btok lot x1 x2 m Ht Hne Hnb Hau Hsc T T2 Htok Hlot Hdraw Hcase
    |L x ac chk au tf rem L1 btok bid x1 t2 Ht Hne Hnb Hau Hsc Htok Hbid Hdon Htr T
    |L x ac chk au Ht Hau]; unfold phiup; cbn [as_p as_x as_ac] in *.
  - specialize (A1 r). specialize (A2 r).
    pose proof (ptrace_wup _ _ _ _ r G (ptrace_one _ _ _ _ M1)) as Hw1. rewrite !sumz_cons, !sumz_nil in Hw1. cbn [dd db dc] in Hw1.
    specialize (Hw1 eq_refl eq_refl). assert (wup_at (c_now c) L1 r <= wup_at (c_now c) L r) as Hw by (destruct (decide _); lia). clear Hw1.
    pose proof (pmove_good _ _ _ _ G M1) as G1.
    destruct (Z.eqb_spec r (rq_addr q)) as [->|Hne].
    + pose proof (flow_up _ _ _ _ _ _ _ (good_rd _ _ _ G1 Hd) Ht Ha Hfl) as Hfw.
      inversion M2 as [|k u a dl' cfg' d0 n p1 Hc' Hd0 Hl Hdl He Hb1 Hb2| | | |]; subst. rewrite Hd in Hd0. injection Hd0 as <-.
      assert (forall k x, rd_last_time (set_sup_k k x d) = rd_last_time d) as El by (by intros []).
      assert (forall k x, rd_b_rate (set_sup_k k x d) = rd_b_rate d /\ rd_d_rate (set_sup_k k x d) = rd_d_rate d) as Er by (by intros []).
      match goal with |- context [req_dust (rq_addr q) ?rt q] => assert (req_dust (rq_addr q) rt q = plain_dust (rq_type q) (rd_b_rate d) (rd_d_rate d)) as -> end.
      { unfold req_dust. rewrite (proj2 (Z.eqb_neq (rq_type q) 7)) by lia. rewrite (proj2 (Z.leb_le (rq_type q) 5)) by lia. rewrite Z.eqb_refl. cbn [andb].
        unfold rates. simpl. rewrite lookup_insert. cbn [fst snd]. destruct (Er (req_kind (rq_type q)) (sup_k (req_kind (rq_type q)) d + dl)) as [-> ->]. done. }
      unfold wup_at in *. simpl. rewrite lookup_insert. rewrite Hd in Hw. unfold wup in *. unfold due at 1. rewrite El, Hl, Z.eqb_refl.
      unfold due at 1 in Hw. rewrite Hl, Z.eqb_refl in Hw. lia.
    + assert (wup_at (c_now c) L2 r = wup_at (c_now c) L1 r) as E2; [|lia].
      inversion M2 as [|k u a dl' cfg' d0 n p1 Hc' Hd0 Hl Hdl He Hb1 Hb2| | | |]; subst. unfold wup_at. simpl. by rewrite lookup_insert_ne.
  - rewrite after_fill_wup. pose proof (ptrace_wup _ _ _ _ r G T) as Hw.
    rewrite !sumz_cons, !sumz_app in Hw. cbn [dd db dc] in Hw.
    destruct (d_rm r (rq_addr q) (au_lot tf) (au_bid tf)) as (R1 & R2 & R3), (d_add r from (au_lot tf) (au_bid tf)) as (Q1 & Q2 & Q3).
    rewrite R1, R2, R3, Q1, Q2, Q3 in Hw. specialize (Hw ltac:(lia) ltac:(lia)). destruct (decide _); lia.
  - rewrite after_fill_wup. pose proof (ptrace_good _ _ _ _ G T) as G1. pose proof (ptrace_good _ _ _ _ G1 T2) as G2.
    pose proof (ptrace_wup _ _ _ _ r G T) as Hw.
    rewrite !sumz_cons, !sumz_app in Hw. cbn [dd db dc] in Hw.
    destruct (d_rm r (ps_backstop L) ∅ (au_bid tf)) as (R1 & R2 & R3), (d_add r from ∅ (au_bid tf)) as (Q1 & Q2 & Q3).
    rewrite R1, R2, R3, Q1, Q2, Q3 in Hw. specialize (Hw ltac:(lia) ltac:(lia)).
    assert (wup_at (c_now c) L1 r <= wup_at (c_now c) L r) as Hw1 by (destruct (decide _); lia). clear Hw.
    assert (req_dust r (rates (after_fill L2 1 (rq_addr q) rem) r) q = 1000000000) as Hdu by (unfold req_dust; by rewrite Ht).
    apply draw_log in Hdraw as Hlog. apply draw_spec in Hdraw as (_ & _ & _ & _ & _ & _ & Hbal).
    assert (balance (x_tok x1) r self = balance (x_tok x) r self) as Hb1.
    { rewrite Hbal. rewrite !bool_decide_eq_false_2; [lia| |]; intros [_ ?]; unfold bs_addr in *; lia. }
    destruct (d_rm r (ps_backstop L) ∅ m) as (M1 & M2 & M3).
    destruct Hcase as [(-> & -> & _)|(_ & _ & _ & ->)].
    + rewrite Hlog, Hb1. pose proof (ptrace_wup _ _ _ _ r G1 T2) as Hw. rewrite M1, M2, M3 in Hw.
      unfold getz in Hw. rewrite !lookup_empty in Hw. simpl in Hw. specialize (Hw eq_refl eq_refl). destruct (decide _); lia.
    + rewrite (burnt_fold self r (fun a => match ps_rdata L2 !! a with Some d => rd_d_rate d | None => 0 end)).
      rewrite (fold_log_tok self (fun a => match ps_rdata L2 !! a with Some d => rd_d_rate d | None => 0 end)). rewrite Hlog, Hb1.
      rewrite (sum_entries m r (fun v => cdiv (v * match ps_rdata L2 !! r with Some d => rd_d_rate d | None => 0 end) 1000000000)).
      assert (wup_at (c_now c) L2 r + 1000000000 * match m !! r with Some v => cdiv (v * match ps_rdata L2 !! r with Some d => rd_d_rate d | None => 0 end) 1000000000 | None => 0 end <= wup_at (c_now c) L1 r + 1000000000) as Hw2; [|lia].
      unfold wup_at. destruct (ps_rdata L1 !! r) as [d|] eqn:Ed.
      * destruct (ptrace_up _ _ _ _ _ _ G1 T2 Ed) as (d1 & d' & I1 & I2 & I3 & I4 & I5 & _ & _ & I6 & I7 & J3 & I8 & I9 & I10 & _).
        rewrite I1. rewrite M1 in I8. rewrite M2 in I9. rewrite M3 in I10. unfold getz in I8, I9. rewrite lookup_empty in I9. simpl in I9.
        unfold wup, due, worth, debt, claims9 in *. rewrite I4, I5 in I2. rewrite I7, I8, I9, I10, I6, J3.
        destruct (m !! r) as [v|]; simpl.
        -- pose proof (cdiv_sub_up (rd_d_supply d * rd_d_rate d1) (v * rd_d_rate d1) 1000000000 ltac:(lia)) as Hcs.
           replace ((rd_d_supply d + - v) * rd_d_rate d1) with (rd_d_supply d * rd_d_rate d1 - v * rd_d_rate d1) by lia.
           rewrite Z.add_0_r. lia.
        -- rewrite !Z.add_0_r. lia.
      * rewrite (ptrace_none _ _ _ _ _ G1 T2 Ed). destruct (m !! r) as [v|]; [|lia]. replace (cdiv (v * 0) 1000000000) with 0; [lia|]. by rewrite Z.mul_0_r.
  - rewrite after_fill_wup. pose proof (ptrace_wup _ _ _ _ r G T) as Hw. destruct (d_cred r (au_lot tf)) as (R1 & R2 & R3).
    rewrite R1, R2, R3 in Hw. specialize (Hw eq_refl eq_refl).
    apply donate_log in Hdon as Hlog. apply donate_spec in Hdon as (_ & _ & _ & _ & _ & _ & Hbal).
    change (x_log (x1 <| x_tok := t2 |>)) with (x_log x1). change (x_tok (x1 <| x_tok := t2 |>)) with t2. rewrite Hlog.
    rewrite (transfer_all_spec _ _ _ _ _ _ Htr). rewrite Z.eqb_refl. rewrite (proj2 (Z.eqb_neq self from)) by congruence.
    rewrite Hbal. rewrite !bool_decide_eq_false_2; [|intros [_ ?]; unfold bs_addr in *; lia|intros [_ ?]; congruence].
    destruct (decide (is_Some (ps_rdata L !! r))) as [Hsome|Hnone]; [lia|].
    assert (getz (au_lot tf) r = 0) as ->; [|lia].
    unfold getz. destruct (au_lot tf !! r) as [v|] eqn:Ev; [|done]. exfalso. apply Hnone.
    apply elem_of_entries in Ev. clear -Ev T G. revert L G T. induction (entries (au_lot tf)) as [|[b n] l IH]; intros L G T; [by apply elem_of_nil in Ev|].
    change (cred_lbls ((b, n) :: l)) with (LAcc b :: LCred b n :: cred_lbls l) in T.
    inversion T as [|? ? p1 ? ? M T1]; subst. inversion T1 as [|? ? p2 ? ? M' T2]; subst.
    apply elem_of_cons in Ev as [[= <- <-]|Ev].
    + inversion M; subst. eauto.
    + pose proof (pmove_good _ _ _ _ G M) as G1. pose proof (pmove_good _ _ _ _ G1 M') as G2. specialize (IH Ev _ G2 T2).
      destruct (ps_rdata L !! r) eqn:E; [eauto|]. rewrite (ptrace_none _ _ _ _ _ G (pt_cons _ _ _ _ _ _ M (ptrace_one _ _ _ _ M')) E) in IH. done.
  - change (wup_at (c_now c) (del_auction L 0 from) r) with (wup_at (c_now c) L r). lia.
Qed.

Lemma areqs_phiup c self from qs s ls s' r :
  areqs c self from s qs ls s' -> good (as_p s) -> self < 0 -> from <> self ->
  phiup (c_now c) self r s' <= phiup (c_now c) self r s + sumz (req_dust r (rates (as_p s') r)) qs /\ rates_le (rates (as_p s) r) (rates (as_p s') r).
Proof.
  intros H G Hs Hf. revert G. induction H as [s|s q qs l1 s1 l2 s2 Ha _ Hq Hqs IH]; intros G; [rewrite sumz_nil; split; [lia|unfold rates_le; lia]|].
  destruct (areq_phiup _ _ _ _ _ _ _ r Hq G Ha Hs Hf) as [P1 P2]. pose proof (ptrace_good _ _ _ _ G (areq_trace _ _ _ _ _ _ _ Hq)) as G1.
  destruct (IH G1) as [P3 P4]. rewrite sumz_cons. pose proof (req_dust_mono r _ _ q P4). split; [lia|]. unfold rates_le in *. lia.
Qed.

(** ** Other calls *)
Lemma moves_wup c self px po out px' r :
  good (px_p px) -> ty_pop po = true -> p_exec c self px po = Ok (out, px') -> (forall f s t qs, po <> PSubmit f s t qs) ->
  wup_at (c_now c) (px_p px') r <= wup_at (c_now c) (px_p px) r \/ worth_at (px_p px') r = worth_at (px_p px) r.
Proof.
  intros G Hty H Hn.
  assert (forall ls, ptrace (c_now c) (px_p px) ls (px_p px') -> sumz (dd r) ls = 0 -> sumz (db r) ls = 0 -> sumz (dc r) ls = 0 -> wup_at (c_now c) (px_p px') r <= wup_at (c_now c) (px_p px) r) as Hquiet.
  { intros ls T H1 H2 H3. pose proof (ptrace_wup _ _ _ _ r G T H1 H2) as Hw. rewrite H3 in Hw. destruct (decide _); lia. }
  destruct (p_exec_data _ _ _ _ _ _ G Hty H) as [(Hm & _)|[(b & -> & Hs)|(_ & _ & Hk & _)]].
  - left. destruct po; simpl in Hm; try discriminate; simpl in H; rewrite (gd_init _ G) in H; simpl in H.
    + exfalso. eapply Hn. reflexivity.
    + unfold on_pool in H. apply bind_ok in H as (p1 & E & H). injection H as <- <-.
      apply bad_debt_sim in E as (_ & _ & _ & T); [|done]. eapply Hquiet; [exact T| | |];
        rewrite ?sumz_cons; cbn [dd db dc]; by apply d_bd.
    + unfold ret_z in H. apply bind_ok in H as ([z px1] & E & H). injection H as <- <-.
      apply claim_sim in E as (_ & es & He & Hz & T & _); [|done|by apply forallb_nonneg].
      eapply Hquiet; [exact T| | |]; unfold claim_lbls; rewrite sumz_map; by apply sumz_zero.
    + apply bind_ok in H as ([a p1] & E & H). injection H as <- <-. simpl in Hty. apply in_u64_iff in Hty.
      apply create_liq_sim in E; [|done|lia]. cbv zeta in E. destruct E as (_ & _ & _ & _ & _ & _ & _ & _ & _ & ls & p2 & Ho & T & ->).
      pose proof (ptrace_app _ _ _ _ _ _ T (ptrace_one _ _ _ _ (pm_auct _ _ (<[(0, user) := a]> (ps_auct p2))))) as T'.
      eapply Hquiet; [exact T'| | |]; rewrite sumz_app, sumz_cons, sumz_nil; cbn [dd db dc];
        (rewrite sumz_zero; [done|]); intros l Hl; apply Ho in Hl as (id & n & ->); done.
    + apply bind_ok in H as ([a p1] & E & H). injection H as <- <-. apply create_bad_debt_auct in E as ->. simpl. done.
    + apply bind_ok in H as ([a p1] & E & H). injection H as <- <-. apply create_interest_auct in E as ->. simpl. done.
  - destruct Hs as (cfg' & _ & _ & _ & _ & _ & _ & _ & _ & _ & _ & Hcase).
    destruct Hcase as [(Hnone & _ & _ & Erd)|(cfg & d & d' & Hc & Hd & _ & _ & _ & Hac & m & _ & Erd)].
    + right. unfold worth_at. rewrite Erd. destruct (decide (b = r)) as [->|Hne]; [|by rewrite lookup_insert_ne]. rewrite lookup_insert.
      destruct (ps_rdata (px_p px) !! r) as [d|] eqn:Ed; [|done].
      destruct (proj2 (gd_dom _ G r) (ex_intro _ _ Ed)) as [? ?]. congruence.
    + left. unfold wup_at. rewrite Erd. destruct (decide (b = r)) as [->|Hne]; [|by rewrite lookup_insert_ne]. rewrite lookup_insert, Hd.
      pose proof (accrue_wup _ _ _ _ _ (good_rd _ _ _ G Hd) (cw_valid _ (gd_cfg _ G) _ _ Hc) (cw_rate _ (gd_cfg _ G)) Hac) as Hw. exact Hw.
  - right. unfold worth_at. by rewrite Hk.
Qed.

(** a pool's tokens move only in its own submits, unless somebody sends it some *)
Lemma held_other w o out w' a tok : reachable w -> a < 0 -> exec w o = Ok (out, w') -> (forall sg f s t qs, o <> OPool sg a (PSubmit f s t qs)) -> ~ gift w a o ->
  held w' tok a = held w tok a.
Proof.
  intros Hr Ha H Hns Hg. pose proof (reachable_noallow _ Hr) as Hna. unfold held. pose proof H as H'. unfold exec in H'. destruct o as [sg xo|sg a1 po|sg ad salt orc rate mp|b0|dt ds|orc|n|b0 t u|b0 r|].
  - apply assert_ok in H' as [G H']. apply andb_prop in G as [G _]. apply bind_ok in H' as ([o1 x1] & Hx & H'). apply Ok_inj in H'. injection H' as <- <-. by eapply x_exec_other.
  - apply assert_ok in H' as [G H']. apply andb_prop in G as [G _]. apply bind_ok in H' as (p & Hp & H'). apply bind_ok in H' as ([o1 px] & Hx & H'). apply Ok_inj in H'. injection H' as <- <-.
    change (w_ext (w <| w_pools := <[a1 := px_p px]> (w_pools w) |> <| w_ext := px_x px |>)) with (px_x px).
    assert (forall u, c_auth (ctx w sg) u = true -> 3 < u) as Hc by (intros u Hu; simpl in Hu; apply mem_addr_elem in Hu; by eapply signer_pos).
    refine (p_exec_other _ _ _ _ _ _ a tok Ha Hc _ Hx _); [exact Hna|]. destruct po; try done.
    assert (a1 <> a) as Hne by (intros ->; eapply Hns; reflexivity). split; [done|]. intros ->. by apply Hg.
  - mon H'. destruct (w_pools w !! _); [done|]. by mon H'.
  - mon H'. destruct (w_pools w !! _); [done|]. by mon H'.
  - by mon H'.
  - by mon H'.
  - by mon H'.
  - by mon H'.
  - by mon H'.
  - by mon H'.
Qed.

(** ** What a transaction may leave behind *)
(** what suppliers lose to rounding when a reserve accrues interest: at most a billionth of a token per supply token, and one token *)
Definition interest_dust (w : World) (a r : Addr) : Z :=
  match reserve w a r with
  | Some d => if rd_last_time d =? w_now w then 0 else rd_b_supply d + 1000000000
  | None => 0
  end.
(** what a request loses to rounding: for supplies and withdrawals of the reserve the worth of one supply token, for borrows and repayments
    of it twice the worth of a debt token, for a bad-debt fill one token *)
Definition request_dust (w : World) (a r : Addr) (q : Request) : Z :=
  if rq_type q =? 7 then 1000000000
  else match reserve w a r with
       | Some d =>
           if rq_addr q =? r then
             if rq_type q <=? 3 then rd_b_rate d else if rq_type q <=? 5 then 2 * rd_d_rate d else 0
           else 0
       | None => 0
       end.
(** only calls of the pool leave dust; rates are those after the call *)
Definition tx_dust (w : World) (a r : Addr) (o : Op) : Z :=
  match exec w o with
  | Ok (_, w') =>
      match o with
      | OPool _ b (PSubmit _ _ _ qs) => if b =? a then interest_dust w a r + sumz (request_dust w' a r) qs else 0
      | OPool _ b _ => if b =? a then interest_dust w a r else 0
      | _ => 0
      end
  | Err _ => 0
  end.
(** over a history *)
Fixpoint dust (w : World) (a r : Addr) (l : list Op) : Z :=
  match l with [] => 0 | o :: l => tx_dust w a r o + dust (step w o) a r l end.

Lemma wup_slack w a r : wup_at (w_now w) (pool w a) r = worth_at (pool w a) r + interest_dust w a r.
Proof. unfold wup_at, worth_at, interest_dust, reserve, wup, due. destruct (ps_rdata (pool w a) !! r); [done|lia]. Qed.
Lemma interest_dust_nonneg w a r : reachable w -> 0 <= interest_dust w a r.
Proof.
  intros Hr. unfold interest_dust. destruct (reserve w a r) as [d|] eqn:E; [|lia]. destruct (_ =? _); [lia|].
  pose proof (ro_bs _ (good_rd _ _ _ (init_of_data _ _ _ _ Hr E) E)). lia.
Qed.

Lemma slack_up w o out w' a r : reachable w -> a < 0 -> exec w o = Ok (out, w') -> ~ gift w a o -> slack w' a r <= slack w a r + tx_dust w a r o.
Proof.
  intros Hr Ha H Hg. unfold tx_dust. rewrite H. pose proof (interest_dust_nonneg w a r Hr) as Hi0.
  assert (worth_at (pool w' a) r <= worth_at (pool w a) r -> held w' r a = held w r a -> burnt a r (x_log (w_ext w')) = burnt a r (x_log (w_ext w)) -> slack w' a r <= slack w a r) as Hquiet.
  { intros H1 H2 H3. unfold slack. rewrite H2, H3. lia. }
  pose proof (exec_pool _ _ _ _ a H) as Hp. inversion Hp as [o1 out1 w1 E Hno|sg po out1 px w1 Hsg Hty Hpl Hex E Ex _|sg admin salt orc rate mp w1 Ea Enone _ _ E|t u w1 E|q w1 E]; subst.
  - assert (slack w' a r <= slack w a r) as Hle.
    { apply Hquiet; [by rewrite E|eapply held_other; [done|done|exact H| |done]; intros; apply Hno|].
      destruct (exec_xsafe a _ _ _ _ Hr Ha Hno H) as [_ Hb]. apply Hb. }
    destruct o as [|sg b po| | | | | | | |]; try lia. destruct (Z.eqb_spec b a) as [->|_]; [by exfalso; apply (Hno sg po)|]. destruct po; lia.
  - assert ((exists f s t qs, po = PSubmit f s t qs) \/ (forall f s t qs, po <> PSubmit f s t qs)) as [(f & s & t & qs & ->)|Hns].
    { destruct po; first [by right | left; by repeat eexists]. }
    + rewrite Z.eqb_refl. pose proof (submit_tx _ _ _ _ _ _ _ _ _ Hr H) as S. cbv zeta in S.
      destruct S as (G & _ & _ & _ & _ & N1 & N2 & N3 & _ & ls & x1 & ac & chk & t1 & t2 & pos & _ & _ & Hq & Ht1 & Ht2 & Hx & _).
      destruct (areqs_phiup _ _ _ _ _ _ _ r Hq (touch_good _ _ G) Ha N1) as [Hphi _]. unfold phiup in Hphi. cbn [as_p as_x as_ac no_actions ac_spender ac_pool] in Hphi.
      rewrite !getz_empty in Hphi. change (wup_at (c_now (ctx w sg)) (touch (pool w a) f) r) with (wup_at (w_now w) (pool w a) r) in Hphi. rewrite wup_slack in Hphi.
      assert (worth_at (pool w' a) r <= wup_at (c_now (ctx w sg)) (pool w' a) r) as Hge.
      { unfold worth_at, wup_at. destruct (ps_rdata (pool w' a) !! r) as [d|] eqn:Ed; [|lia]. unfold wup.
        pose proof (due_nonneg (c_now (ctx w sg)) d (good_rd _ _ _ (init_of_data _ _ _ _ (reachable_step _ _ _ _ Hr H) Ed) Ed)). lia. }
      assert (sumz (req_dust r (rates (pool w' a) r)) qs <= sumz (request_dust w' a r) qs) as Hsum.
      { assert (forall q, req_dust r (rates (pool w' a) r) q = request_dust w' a r q) as Heq.
        { intros q. unfold req_dust, request_dust, plain_dust, rates, reserve. destruct (rq_type q =? 7); [done|].
          destruct (ps_rdata (pool w' a) !! r) as [d|]; cbn [fst snd].
          - destruct (rq_addr q =? r); [rewrite andb_true_r|by rewrite andb_false_r]. destruct (Z.leb_spec (rq_type q) 3), (Z.leb_spec (rq_type q) 5); lia.
          - destruct (_ && _), (rq_type q <=? 3); lia. }
        rewrite (sumz_ext _ _ qs (fun q _ => Heq q)). lia. }
      unfold slack, held. rewrite Hx. change (x_tok (x1 <| x_tok := t2 |>)) with t2. change (x_log (x1 <| x_tok := t2 |>)) with (x_log x1).
      rewrite (transfer_all_spec _ _ _ _ _ _ Ht2), (transfer_all_spec _ _ _ _ _ _ Ht1). rewrite !Z.eqb_refl.
      rewrite (proj2 (Z.eqb_neq a s)), (proj2 (Z.eqb_neq a t)) by congruence. lia.
    + assert (slack w' a r <= slack w a r + interest_dust w a r) as Hle.
      { assert (worth_at (pool w' a) r <= worth_at (pool w a) r + interest_dust w a r) as Hw.
        { rewrite E. destruct (ps_init (pool w a)) eqn:Ei.
          - destruct (moves_wup _ _ (mkPX (pool w a) (w_ext w)) _ _ _ r (reachable_good _ _ Hr Ei) Hty Hex Hns) as [Hw|Hw]; [|cbn [px_p] in Hw; lia].
            cbn [px_p] in Hw. change (c_now (ctx w sg)) with (w_now w) in Hw. rewrite wup_slack in Hw. rewrite <- E in *.
            unfold worth_at in *. unfold wup_at in Hw. destruct (ps_rdata (pool w' a) !! r) as [d|] eqn:Ed; [|lia]. unfold wup in Hw.
            pose proof (due_nonneg (w_now w) d (good_rd _ _ _ (init_of_data _ _ _ _ (reachable_step _ _ _ _ Hr H) Ed) Ed)). lia.
          - pose proof Hex as H0. apply p_exec_cfg in H0 as [Hx0 H0]. cbv zeta in *. simpl in *.
            destruct po; try congruence. apply initialize_spec in H0 as (_ & _ & _ & _ & Hp'). unfold worth_at. rewrite Hp'. simpl. lia. }
        assert (held w' r a = held w r a) as H2.
        { eapply held_other; [done|done|exact H| |done]. intros sg' f s t qs [=]. by eapply Hns. }
        assert (burnt a r (x_log (w_ext w')) = burnt a r (x_log (w_ext w))) as H3.
        { rewrite Ex. destruct (p_exec_xsafe _ _ (mkPX (pool w a) (w_ext w)) _ _ _ Ha Hex Hns) as [_ Hb]. apply Hb. }
        unfold slack. rewrite H2, H3. lia. }
      rewrite Z.eqb_refl. destruct po; try exact Hle. by exfalso; eapply Hns.
  - assert (pool w (dep_addr admin salt) = fresh_pool) as Ef by (unfold pool; by rewrite Enone).
    assert (slack w' (dep_addr admin salt) r <= slack w (dep_addr admin salt) r); [|lia]. apply Hquiet.
    + rewrite Ef. apply initialize_spec in E as (_ & _ & _ & _ & Hp'). unfold worth_at. by rewrite Hp'.
    + eapply held_other; [done|done|exact H| |done]. intros; discriminate.
    + assert (forall sg0 po, ODeploy sg admin salt orc rate mp <> OPool sg0 (dep_addr admin salt) po) as Hno by (intros; discriminate).
      destruct (exec_xsafe (dep_addr admin salt) _ _ _ _ Hr Ha Hno H) as [_ Hb]. apply Hb.
  - assert (slack w' a r <= slack w a r); [|lia]. apply Hquiet; [by rewrite E|eapply held_other; [done|done|exact H| |done]; intros; discriminate|].
    assert (forall sg0 po, OExpireAuction a t u <> OPool sg0 a po) as Hno by (intros; discriminate).
    destruct (exec_xsafe a _ _ _ _ Hr Ha Hno H) as [_ Hb]. apply Hb.
  - assert (slack w' a r <= slack w a r); [|lia]. apply Hquiet; [by rewrite E|eapply held_other; [done|done|exact H| |done]; intros; discriminate|].
    assert (forall sg0 po, OExpireQueue a q <> OPool sg0 a po) as Hno by (intros; discriminate).
    destruct (exec_xsafe a _ _ _ _ Hr Ha Hno H) as [_ Hb]. apply Hb.
Qed.

(** ** C85: value is conserved *)
(** what reserve [r] of pool [a] is worth beyond its obligations: tokens held, plus debt (rounded up to whole tokens, as a repayment of all of
    it would be), plus debt burned so far, minus supplier claims and backstop credit; in billionths of a token *)
Definition surplus (w : World) (a r : Addr) : Z :=
  match reserve w a r with
  | Some d => 1000000000 * (held w r a + cdiv (rd_d_supply d * rd_d_rate d) 1000000000 + burned w a r)
              - rd_b_supply d * rd_b_rate d - 1000000000 * rd_credit d
  | None => 1000000000 * (held w r a + burned w a r)
  end.
Lemma surplus_slack w a r : surplus w a r = slack w a r.
Proof. rewrite slack_shortfall. unfold surplus, shortfall. destruct (reserve w a r); lia. Qed.

(** no transaction creates a hole, and none that is not a gift leaves more behind than the dust of the roundings *)
Theorem C85_value_conserved w o out w' a r :
  reachable w -> a < 0 -> exec w o = Ok (out, w') ->
  surplus w a r <= surplus w' a r /\
  (~ gift w a o -> surplus w' a r <= surplus w a r + tx_dust w a r o).
Proof.
  intros Hr Ha H. rewrite !surplus_slack. split; [by eapply slack_step|]. intros Hg. by eapply slack_up.
Qed.

(** over a history *)
Theorem C85_value_conserved_history w l a r :
  reachable w -> a < 0 ->
  surplus w a r <= surplus (run w l) a r /\
  ((forall l1 o l2, l = l1 ++ o :: l2 -> ~ gift (run w l1) a o) -> surplus (run w l) a r <= surplus w a r + dust w a r l).
Proof.
  revert w. induction l as [|o l IH]; intros w Hr Ha; [change (run w []) with w; cbn [dust]; split; [lia|intros _; lia]|].
  change (run w (o :: l)) with (run (step w o) l). cbn [dust].
  assert (surplus w a r <= surplus (step w o) a r /\ (~ gift w a o -> surplus (step w o) a r <= surplus w a r + tx_dust w a r o)) as [S1 S2].
  { unfold step. destruct (exec w o) as [[out w']|e] eqn:E; [by eapply C85_value_conserved|]. unfold tx_dust. rewrite E. split; [lia|intros _; lia]. }
  destruct (IH (step w o) (reachable_run w [o] Hr) Ha) as [I1 I2]. split; [lia|]. intros Hg.
  assert (~ gift w a o) as Hg0 by (by apply (Hg [] o l)). specialize (S2 Hg0).
  assert (forall l1 o' l2, l = l1 ++ o' :: l2 -> ~ gift (run (step w o) l1) a o') as Hg1.
  { intros l1 o' l2 ->. apply (Hg (o :: l1) o' l2). done. }
  specialize (I2 Hg1). lia.
Qed.

(** without gifts a pool never lends more than its suppliers and the backstop gave it: the debt is at most what they can claim, plus what the
    pool's address held to begin with, plus the dust *)
Theorem C85_no_more_lent_than_supplied w l a r d :
  reachable w -> reserve (run w l) a r = Some d ->
  (forall l1 o l2, l = l1 ++ o :: l2 -> ~ gift (run w l1) a o) ->
  1000000000 * (held (run w l) r a + cdiv (rd_d_supply d * rd_d_rate d) 1000000000 + burned (run w l) a r) <=
  rd_b_supply d * rd_b_rate d + 1000000000 * rd_credit d + surplus w a r + dust w a r l /\ 0 <= held (run w l) r a.
Proof.
  intros Hr Hd Hg. pose proof (reachable_run w l Hr) as Hr'. pose proof (reserve_neg _ _ _ _ Hr' Hd) as Ha.
  destruct (C85_value_conserved_history w l a r Hr Ha) as [_ H]. specialize (H Hg). unfold surplus in H at 1. rewrite Hd in H.
  split; [lia|]. exact (reachable_tok_nonneg _ Hr' r a).
Qed.
