(** * Solvency of a reserve: what every call does to the tokens a pool holds, what it is
      owed and what it owes *)
From Verif Require Import Base Types Token Emitter Factory Backstop PoolReserve PoolUser PoolHealth
  PoolAuction PoolSubmit PoolEmis PoolAdmin World Facts XMove Spec FrameFacts PoolFrame PoolCfg PoolAccrue PoolTrace PoolInv AuctionFacts
  PoolSim PoolReq PoolHF PoolOps PoolLiq PoolReach PoolTx PropsBackstop PropsPool3 PropsPool6.

(** debt minus supplier claims minus backstop credit, in billionths *)
Definition worth (d : ResData) : Z := 1000000000 * debt d - claims9 d - 1000000000 * rd_credit d.
Definition worth_at (p : PoolSt) (r : Addr) : Z := match ps_rdata p !! r with Some d => worth d | None => 0 end.

(** changes of the debt tokens, the supply tokens and the credit of reserve [r] *)
Definition dd (r : Addr) (l : label) : Z := match l with LPos KLiab _ a n => if a =? r then n else 0 | _ => 0 end.
Definition db (r : Addr) (l : label) : Z :=
  match l with LPos KSup _ a n | LPos KColl _ a n => if a =? r then n else 0 | _ => 0 end.
Definition dc (r : Addr) (l : label) : Z := match l with LCred a n => if a =? r then n else 0 | _ => 0 end.

Lemma accrue_worth now rate cfg d d' : rd_ok d -> cfg_bounds cfg -> 0 <= rate < 10000000 -> accrue now rate cfg d = Ok d' -> worth d <= worth d'.
Proof.
  intros W Hc Hr H. destruct (accrue_spec _ _ _ _ _ W Hc Hr H) as (_ & _ & _ & _ & _ & _ & _ & _ & A & _).
  unfold worth. unfold accrued in A. lia.
Qed.

Lemma ptrace_res now p ls p' r d : good p -> ptrace now p ls p' -> ps_rdata p !! r = Some d ->
  exists d1 d', ps_rdata p' !! r = Some d' /\ worth d <= worth d1 /\ rd_ok d1 /\
    rd_d_supply d1 = rd_d_supply d /\ rd_b_supply d1 = rd_b_supply d /\
    rd_d_rate d' = rd_d_rate d1 /\ rd_b_rate d' = rd_b_rate d1 /\
    rd_d_supply d' = rd_d_supply d + sumz (dd r) ls /\ rd_b_supply d' = rd_b_supply d + sumz (db r) ls /\
    rd_credit d' = rd_credit d1 - sumz (dc r) ls /\ (rd_last_time d = now -> d1 = d).
Proof.
  intros G T. revert d G. induction T as [p|p l p1 ls p2 M T IH]; intros d G Hd.
  - exists d, d. rewrite !sumz_nil. pose proof (good_rd _ _ _ G Hd). repeat split; try done; try lia; apply H.
  - pose proof (pmove_good _ _ _ _ G M) as G1. rewrite !sumz_cons.
    assert (ps_rdata p1 !! r = Some d -> dd r l = 0 -> db r l = 0 -> dc r l = 0 ->
      exists d1 d', ps_rdata p2 !! r = Some d' /\ worth d <= worth d1 /\ rd_ok d1 /\
        rd_d_supply d1 = rd_d_supply d /\ rd_b_supply d1 = rd_b_supply d /\
        rd_d_rate d' = rd_d_rate d1 /\ rd_b_rate d' = rd_b_rate d1 /\
        rd_d_supply d' = rd_d_supply d + (dd r l + sumz (dd r) ls) /\ rd_b_supply d' = rd_b_supply d + (db r l + sumz (db r) ls) /\
        rd_credit d' = rd_credit d1 - (dc r l + sumz (dc r) ls) /\ (rd_last_time d = now -> d1 = d)) as Hsame.
    { intros H1 -> -> ->. destruct (IH _ G1 H1) as (d1 & d' & I). exists d1, d'. exact I. }
    destruct M as [a cfg d0 d0' Hc Hd0 Hac|k u a dl cfg d0 n p1 Hc Hd0 Hl Hdl He Hb1 Hb2|a n d0 Hd0 Hl Hb|k u a cfg d0 cl n p1 Hc Hd0 He|u|m].
    + destruct (decide (a = r)) as [->|Hne]; [|apply Hsame; try done; simpl; by rewrite lookup_insert_ne].
      rewrite Hd in Hd0. injection Hd0 as <-.
      destruct (accrue_spec _ _ _ _ _ (good_rd _ _ _ G Hd) (cw_valid _ (gd_cfg _ G) _ _ Hc) (cw_rate _ (gd_cfg _ G)) Hac) as (Hok & S1 & S2 & S3 & _ & _ & _ & _ & _ & _ & Hid).
      pose proof (accrue_worth _ _ _ _ _ (good_rd _ _ _ G Hd) (cw_valid _ (gd_cfg _ G) _ _ Hc) (cw_rate _ (gd_cfg _ G)) Hac) as Hw.
      destruct (IH d0' G1) as (d1 & d' & I1 & I2 & I3 & I4 & I5 & I6 & I7 & I8 & I9 & I10 & I11); [simpl; by rewrite lookup_insert|].
      specialize (I11 S3). subst d1. exists d0', d'. simpl. rewrite ?S1, ?S2 in *. repeat split; try done; try lia; try apply Hok.
      intros Hlt. rewrite Hid by (right; lia). destruct d; simpl in *; by subst.
    + pose proof (emis_rdata _ _ (p_emissions_emis _ _ _ _ _ _ _ _ _ _ He)) as Hrd.
      destruct (decide (a = r)) as [->|Hne].
      2:{ apply Hsame; [simpl; by rewrite lookup_insert_ne| | |done]; simpl; destruct k; try done; by rewrite (proj2 (Z.eqb_neq a r)). }
      rewrite Hd in Hd0. injection Hd0 as <-.
      destruct (IH (set_sup_k k (sup_k k d + dl) d) G1) as (d1 & d' & I1 & I2 & I3 & I4 & I5 & I6 & I7 & I8 & I9 & I10 & I11); [simpl; by rewrite lookup_insert|].
      assert (rd_last_time (set_sup_k k (sup_k k d + dl) d) = now) as Hlt by (destruct k; done).
      specialize (I11 Hlt). subst d1. exists d, d'.
      pose proof (good_rd _ _ _ G Hd) as Hok.
      destruct k; simpl in *; rewrite ?Z.eqb_refl; repeat split; try done; try lia; apply Hok.
    + destruct (decide (a = r)) as [->|Hne].
      2:{ apply Hsame; [simpl; by rewrite lookup_insert_ne|done|done|]; simpl; by rewrite (proj2 (Z.eqb_neq a r)). }
      rewrite Hd in Hd0. injection Hd0 as <-.
      destruct (IH (d <| rd_credit := rd_credit d - n |>) G1) as (d1 & d' & I1 & I2 & I3 & I4 & I5 & I6 & I7 & I8 & I9 & I10 & I11); [simpl; by rewrite lookup_insert|].
      specialize (I11 Hl). subst d1. exists d, d'. pose proof (good_rd _ _ _ G Hd) as Hok.
      simpl in *; rewrite ?Z.eqb_refl; repeat split; try done; try lia; apply Hok.
    + pose proof (emis_rdata _ _ (p_emissions_emis _ _ _ _ _ _ _ _ _ _ He)) as Hrd. apply Hsame; try done. by rewrite Hrd.
    + by apply Hsame.
    + by apply Hsame.
Qed.

Lemma ptrace_none now p ls p' r : good p -> ptrace now p ls p' -> ps_rdata p !! r = None -> ps_rdata p' !! r = None.
Proof.
  intros G T Hn. pose proof (ptrace_good _ _ _ _ G T) as G'. destruct (ps_rdata p' !! r) as [d'|] eqn:E; [|done]. exfalso.
  destruct (proj2 (gd_dom _ G' r) (ex_intro _ _ E)) as [cfg Hc].
  pose proof (ptrace_cfg _ _ _ _ T) as (_ & _ & _ & _ & _ & _ & Hr & _). rewrite Hr in Hc.
  destruct (proj1 (gd_dom _ G r) (ex_intro _ _ Hc)) as [d Hd]. congruence.
Qed.
(** debt and supply tokens only change hands: the worth changes by the credit only *)
Lemma ptrace_worth now p ls p' r : good p -> ptrace now p ls p' -> sumz (dd r) ls = 0 -> sumz (db r) ls = 0 ->
  worth_at p r + 1000000000 * (if decide (is_Some (ps_rdata p !! r)) then sumz (dc r) ls else 0) <= worth_at p' r.
Proof.
  intros G T Hdd Hdb. unfold worth_at. destruct (ps_rdata p !! r) as [d|] eqn:E.
  - destruct (ptrace_res _ _ _ _ _ _ G T E) as (d1 & d' & I1 & I2 & I3 & I4 & I5 & I6 & I7 & I8 & I9 & I10 & _).
    rewrite I1, decide_True by done. unfold worth, debt, claims9 in *. rewrite I4, I5 in I2. rewrite I6, I7, I8, I9, I10, Hdd, Hdb, !Z.add_0_r. lia.
  - rewrite (ptrace_none _ _ _ _ _ G T E), decide_False; [lia|]. by intros [? ?].
Qed.

(** ** Sums of labels *)
Lemma dd_lbls r k u s (m : gmap Addr Z) :
  sumz (dd r) (lbls k u s (entries m)) = (match k with KLiab => s * getz m r | _ => 0 end) /\
  sumz (db r) (lbls k u s (entries m)) = (match k with KLiab => 0 | _ => s * getz m r end) /\
  sumz (dc r) (lbls k u s (entries m)) = 0.
Proof.
  assert (forall l, sumz (dd r) (lbls k u s l) = (match k with KLiab => s * sumz (fun e : Addr * Z => if decide (e.1 = r) then e.2 else 0) l | _ => 0 end) /\
    sumz (db r) (lbls k u s l) = (match k with KLiab => 0 | _ => s * sumz (fun e : Addr * Z => if decide (e.1 = r) then e.2 else 0) l end) /\
    sumz (dc r) (lbls k u s l) = 0) as H.
  { induction l as [|[a v] l IH]; [destruct k; rewrite ?sumz_nil; simpl; lia|].
    change (lbls k u s ((a, v) :: l)) with (LAcc a :: LPos k u a (s * v) :: lbls k u s l).
    rewrite !sumz_cons. destruct IH as (-> & -> & ->). cbn [dd db dc fst snd].
    destruct (decide (a = r)) as [->|Hne]; [rewrite Z.eqb_refl; destruct k; lia|rewrite (proj2 (Z.eqb_neq _ _) Hne); destruct k; lia]. }
  specialize (H (entries m)). rewrite (sum_entries m r (fun v => v)) in H. unfold getz. destruct (m !! r); exact H.
Qed.
Lemma d_rm r u c l : sumz (dd r) (rm_lbls u c l) = - getz l r /\ sumz (db r) (rm_lbls u c l) = - getz c r /\ sumz (dc r) (rm_lbls u c l) = 0.
Proof.
  unfold rm_lbls. rewrite !sumz_app. destruct (dd_lbls r KColl u (-1) c) as (-> & -> & ->), (dd_lbls r KLiab u (-1) l) as (-> & -> & ->). lia.
Qed.
Lemma d_add r u c l : sumz (dd r) (add_lbls u c l) = getz l r /\ sumz (db r) (add_lbls u c l) = getz c r /\ sumz (dc r) (add_lbls u c l) = 0.
Proof.
  unfold add_lbls. rewrite !sumz_app. destruct (dd_lbls r KColl u 1 c) as (-> & -> & ->), (dd_lbls r KLiab u 1 l) as (-> & -> & ->). lia.
Qed.
Lemma d_cred r (m : gmap Addr Z) : sumz (dd r) (cred_lbls (entries m)) = 0 /\ sumz (db r) (cred_lbls (entries m)) = 0 /\ sumz (dc r) (cred_lbls (entries m)) = getz m r.
Proof.
  assert (forall l, sumz (dd r) (cred_lbls l) = 0 /\ sumz (db r) (cred_lbls l) = 0 /\ sumz (dc r) (cred_lbls l) = sumz (fun e : Addr * Z => if decide (e.1 = r) then e.2 else 0) l) as H.
  { induction l as [|[a v] l IH]; [done|]. change (cred_lbls ((a, v) :: l)) with (LAcc a :: LCred a v :: cred_lbls l).
    rewrite !sumz_cons. destruct IH as (-> & -> & ->). cbn [dd db dc fst snd].
    destruct (decide (a = r)) as [->|Hne]; [rewrite Z.eqb_refl; lia|rewrite (proj2 (Z.eqb_neq _ _) Hne); lia]. }
  specialize (H (entries m)). rewrite (sum_entries m r (fun v => v)) in H. unfold getz. destruct (m !! r); exact H.
Qed.
Lemma d_bd r user bs l es : sumz (dd r) (bd_lbls user bs l es) = 0 /\ sumz (db r) (bd_lbls user bs l es) = 0 /\ sumz (dc r) (bd_lbls user bs l es) = 0.
Proof.
  induction es as [|[i v] es IH]; [done|]. unfold bd_lbls in *. cbn [flat_map fst snd]. destruct (l !! Z.to_nat i) as [a|]; [|exact IH].
  rewrite !sumz_app. destruct IH as (-> & -> & ->). rewrite ?sumz_cons, ?sumz_nil. cbn [dd db dc]. destruct (a =? r); lia.
Qed.

(** ** A plain request *)
Lemma cdiv_sub a b c : 0 < c -> cdiv (a - b) c >= cdiv a c - cdiv b c.
Proof. intros Hc. pose proof (cdiv_spec (a - b) c Hc). pose proof (cdiv_spec a c Hc). pose proof (cdiv_spec b c Hc). nia. Qed.
Lemma cdiv_shift a c n : 0 < c -> cdiv (a + n * c) c = cdiv a c + n.
Proof. intros Hc. unfold cdiv. replace (- (a + n * c)) with (- a + (- n) * c) by lia. rewrite Z.div_add; lia. Qed.

Lemma flow_worth t d cur amt dl pin pout : rd_ok d -> 0 <= t <= 5 -> 0 <= amt -> flow t d cur amt = (dl, pin, pout) ->
  worth d <= worth (set_sup_k (req_kind t) (sup_k (req_kind t) d + dl) d) + 1000000000 * (pin - pout).
Proof.
  intros W Ht Ha H. pose proof (ro_d _ W) as Hdr. pose proof (ro_b _ W) as Hbr. change SCALAR_9 with 1000000000 in Hdr, Hbr.
  assert (t = 0 \/ t = 1 \/ t = 2 \/ t = 3 \/ t = 4 \/ t = 5) as [->|[->|[->|[->|[->| ->]]]]] by lia;
    unfold flow in H; cbn [Z.eqb Pos.eqb orb] in H; cbv zeta in H; unfold worth, debt, claims9, req_kind; cbn [Z.leb Z.compare Pos.compare Pos.compare_cont];
    cbn [set_sup_k sup_k rd_d_supply rd_b_supply rd_d_rate rd_b_rate rd_credit set].
  - injection H as <- <- <-. pose proof (fdiv_spec (amt * 1000000000) (rd_b_rate d) ltac:(lia)). simpl. nia.
  - pose proof (cdiv_spec (amt * 1000000000) (rd_b_rate d) ltac:(lia)). pose proof (fdiv_spec (cur * rd_b_rate d) 1000000000 ltac:(lia)).
    destruct (cur <? _); injection H as <- <- <-; simpl; nia.
  - injection H as <- <- <-. pose proof (fdiv_spec (amt * 1000000000) (rd_b_rate d) ltac:(lia)). simpl. nia.
  - pose proof (cdiv_spec (amt * 1000000000) (rd_b_rate d) ltac:(lia)). pose proof (fdiv_spec (cur * rd_b_rate d) 1000000000 ltac:(lia)).
    destruct (cur <? _); injection H as <- <- <-; simpl; nia.
  - injection H as <- <- <-. pose proof (cdiv_spec (amt * 1000000000) (rd_d_rate d) ltac:(lia)). simpl.
    pose proof (cdiv_mono (rd_d_supply d * rd_d_rate d + amt * 1000000000) ((rd_d_supply d + cdiv (amt * 1000000000) (rd_d_rate d)) * rd_d_rate d) 1000000000 ltac:(lia) ltac:(nia)) as Hm.
    rewrite cdiv_shift in Hm by lia. lia.
  - destruct (cur <? _); injection H as <- <- <-; simpl.
    + pose proof (cdiv_sub (rd_d_supply d * rd_d_rate d) (cur * rd_d_rate d) 1000000000 ltac:(lia)) as Hs.
      replace ((rd_d_supply d + - cur) * rd_d_rate d) with (rd_d_supply d * rd_d_rate d - cur * rd_d_rate d) by lia. lia.
    + pose proof (fdiv_spec (amt * 1000000000) (rd_d_rate d) ltac:(lia)).
      pose proof (cdiv_mono (rd_d_supply d * rd_d_rate d + (- amt) * 1000000000) ((rd_d_supply d + - (amt * 1000000000 / rd_d_rate d)) * rd_d_rate d) 1000000000 ltac:(lia) ltac:(nia)) as Hm.
      rewrite cdiv_shift in Hm by lia. lia.
Qed.

(** ** Requests *)
(** debt burned, as reported by the events *)
Definition burnt (a r : Addr) (log : list Ev) : Z :=
  sumz (fun ev => match ev with EvBurn p b n rate => if (p =? a) && (b =? r) then cdiv (n * rate) 1000000000 else 0 | _ => 0 end) log.

Definition phi (self r : Addr) (s : AS) : Z :=
  worth_at (as_p s) r + 1000000000 * (balance (x_tok (as_x s)) r self + getz (ac_spender (as_ac s)) r - getz (ac_pool (as_ac s)) r)
  + 1000000000 * burnt self r (x_log (as_x s)).

Lemma burnt_fold self r (f : Addr -> Z) x l :
  burnt self r (x_log (foldr (fun e x => add_log (EvBurn self e.1 e.2 (f e.1)) x) x l)) =
  burnt self r (x_log x) + sumz (fun e : Addr * Z => if decide (e.1 = r) then cdiv (e.2 * f r) 1000000000 else 0) l.
Proof.
  induction l as [|[a v] l IH]; [rewrite sumz_nil; simpl; lia|]. cbn [foldr]. rewrite sumz_cons.
  change (x_log (add_log ?e ?y)) with (e :: x_log y). unfold burnt at 1. rewrite sumz_cons. match goal with |- ?a + ?b = _ => change b with (burnt self r (x_log (foldr (fun e x => add_log (EvBurn self e.1 e.2 (f e.1)) x) x l))) end. rewrite IH.
  cbn [fst snd]. rewrite Z.eqb_refl. simpl. destruct (decide (a = r)) as [->|Hne]; [rewrite Z.eqb_refl; lia|rewrite (proj2 (Z.eqb_neq _ _) Hne); lia].
Qed.
Lemma fold_log_tok self (f : Addr -> Z) x l : x_tok (foldr (fun e x => add_log (EvBurn self e.1 e.2 (f e.1)) x) x l) = x_tok x.
Proof. induction l as [|e l IH]; [done|]. simpl. exact IH. Qed.
Lemma draw_log c x p n t x' : b_draw c x p n t = Ok x' -> x_log x' = x_log x.
Proof. unfold b_draw. intros H. by mon H. Qed.
Lemma donate_log c x f p n x' : b_donate c x f p n = Ok x' -> x_log x' = x_log x.
Proof. unfold b_donate. intros H. by mon H. Qed.

Lemma auct_worth p m r : worth_at (p <| ps_auct := m |>) r = worth_at p r. Proof. done. Qed.
Lemma after_fill_worth p t u rem r : worth_at (after_fill p t u rem) r = worth_at p r. Proof. by destruct rem. Qed.

Lemma areq_phi c self from q s ls s' r :
  areq c self from q s ls s' -> good (as_p s) -> 0 <= rq_amt q -> self < 0 -> from <> self -> phi self r s <= phi self r s'.
Proof.
  intros H G Ha Hs Hf. pose proof (areq_trace _ _ _ _ _ _ _ H) as T0. pose proof (ptrace_good _ _ _ _ G T0) as G'.
  destruct H as [L x ac chk cfg d L1 L2 d2 dl pin pout ac' Ht Hc M1 Hd Hfl M2 Hd2 _ _ _ A1 A2
    |L x ac chk au tf rem L1 Ht Hne Hau Hsc T
    |L x ac chk au tf rem L1 L2 btok lot x1 x2 m Ht Hne Hnb Hau Hsc T T2 Htok Hlot Hdraw Hcase
    |L x ac chk au tf rem L1 btok bid x1 t2 Ht Hne Hnb Hau Hsc Htok Hbid Hdon Htr T
    |L x ac chk au Ht Hau]; unfold phi; cbn [as_p as_x as_ac] in *.
  - specialize (A1 r). specialize (A2 r).
    pose proof (ptrace_worth _ _ _ _ r G (ptrace_one _ _ _ _ M1)) as Hw1. rewrite !sumz_cons, !sumz_nil in Hw1. cbn [dd db dc] in Hw1.
    specialize (Hw1 eq_refl eq_refl). assert (worth_at L r <= worth_at L1 r) as Hw by (destruct (decide _); lia). clear Hw1.
    pose proof (pmove_good _ _ _ _ G M1) as G1.
    destruct (Z.eqb_spec r (rq_addr q)) as [->|Hne].
    + pose proof (flow_worth _ _ _ _ _ _ _ (good_rd _ _ _ G1 Hd) Ht Ha Hfl) as Hfw.
      assert (worth_at L2 (rq_addr q) = worth (set_sup_k (req_kind (rq_type q)) (sup_k (req_kind (rq_type q)) d + dl) d)) as E2.
      { inversion M2 as [|k u a dl' cfg' d0 n p1 Hc' Hd0 Hl Hdl He Hb1 Hb2| | | |]; subst. rewrite Hd in Hd0. injection Hd0 as <-.
        unfold worth_at. simpl. by rewrite lookup_insert. }
      assert (worth_at L1 (rq_addr q) = worth d) as E1 by (unfold worth_at; by rewrite Hd). lia.
    + assert (worth_at L2 r = worth_at L1 r) as E2; [|lia].
      inversion M2 as [|k u a dl' cfg' d0 n p1 Hc' Hd0 Hl Hdl He Hb1 Hb2| | | |]; subst. unfold worth_at. simpl. by rewrite lookup_insert_ne.
  - rewrite after_fill_worth. pose proof (ptrace_worth _ _ _ _ r G T) as Hw.
    rewrite !sumz_cons, !sumz_app in Hw. cbn [dd db dc] in Hw.
    destruct (d_rm r (rq_addr q) (au_lot tf) (au_bid tf)) as (R1 & R2 & R3), (d_add r from (au_lot tf) (au_bid tf)) as (Q1 & Q2 & Q3).
    rewrite R1, R2, R3, Q1, Q2, Q3 in Hw. specialize (Hw ltac:(lia) ltac:(lia)). destruct (decide _); lia.
  - rewrite after_fill_worth. pose proof (ptrace_good _ _ _ _ G T) as G1. pose proof (ptrace_good _ _ _ _ G1 T2) as G2.
    pose proof (ptrace_worth _ _ _ _ r G T) as Hw.
    rewrite !sumz_cons, !sumz_app in Hw. cbn [dd db dc] in Hw.
    destruct (d_rm r (ps_backstop L) ∅ (au_bid tf)) as (R1 & R2 & R3), (d_add r from ∅ (au_bid tf)) as (Q1 & Q2 & Q3).
    rewrite R1, R2, R3, Q1, Q2, Q3 in Hw. specialize (Hw ltac:(lia) ltac:(lia)).
    assert (worth_at L r <= worth_at L1 r) as Hw1 by (destruct (decide _); lia). clear Hw.
    apply draw_log in Hdraw as Hlog. apply draw_spec in Hdraw as (_ & _ & _ & _ & _ & _ & Hbal).
    assert (balance (x_tok x1) r self = balance (x_tok x) r self) as Hb1.
    { rewrite Hbal. rewrite !bool_decide_eq_false_2; [lia| |]; intros [_ ?]; unfold bs_addr in *; lia. }
    destruct (d_rm r (ps_backstop L) ∅ m) as (M1 & M2 & M3).
    destruct Hcase as [(-> & -> & _)|(_ & _ & _ & ->)].
    + rewrite Hlog, Hb1. pose proof (ptrace_worth _ _ _ _ r G1 T2) as Hw. rewrite M1, M2, M3 in Hw.
      unfold getz in Hw. rewrite !lookup_empty in Hw. simpl in Hw. specialize (Hw eq_refl eq_refl). destruct (decide _); lia.
    + rewrite (burnt_fold self r (fun a => match ps_rdata L2 !! a with Some d => rd_d_rate d | None => 0 end)).
      rewrite (fold_log_tok self (fun a => match ps_rdata L2 !! a with Some d => rd_d_rate d | None => 0 end)). rewrite Hlog, Hb1.
      rewrite (sum_entries m r (fun v => cdiv (v * match ps_rdata L2 !! r with Some d => rd_d_rate d | None => 0 end) 1000000000)).
      assert (worth_at L1 r <= worth_at L2 r + 1000000000 * match m !! r with Some v => cdiv (v * match ps_rdata L2 !! r with Some d => rd_d_rate d | None => 0 end) 1000000000 | None => 0 end) as Hw2; [|lia].
      unfold worth_at. destruct (ps_rdata L1 !! r) as [d|] eqn:Ed.
      * destruct (ptrace_res _ _ _ _ _ _ G1 T2 Ed) as (d1 & d' & I1 & I2 & I3 & I4 & I5 & I6 & I7 & I8 & I9 & I10 & _).
        rewrite I1. rewrite M1 in I8. rewrite M2 in I9. rewrite M3 in I10. unfold getz in I8, I9. rewrite lookup_empty in I9. simpl in I9.
        unfold worth, debt, claims9 in *. rewrite I4, I5 in I2. rewrite I7, I8, I9, I10, I6.
        destruct (m !! r) as [v|]; simpl.
        -- pose proof (cdiv_sub (rd_d_supply d * rd_d_rate d1) (v * rd_d_rate d1) 1000000000 ltac:(lia)) as Hcs.
           replace ((rd_d_supply d + - v) * rd_d_rate d1) with (rd_d_supply d * rd_d_rate d1 - v * rd_d_rate d1) by lia. lia.
        -- rewrite !Z.add_0_r. lia.
      * rewrite (ptrace_none _ _ _ _ _ G1 T2 Ed). destruct (m !! r) as [v|]; [|lia]. replace (cdiv (v * 0) 1000000000) with 0; [lia|]. by rewrite Z.mul_0_r.
  - rewrite after_fill_worth. pose proof (ptrace_worth _ _ _ _ r G T) as Hw. destruct (d_cred r (au_lot tf)) as (R1 & R2 & R3).
    rewrite R1, R2, R3 in Hw. specialize (Hw eq_refl eq_refl).
    apply donate_log in Hdon as Hlog. apply donate_spec in Hdon as (_ & _ & _ & _ & _ & _ & Hbal).
    change (x_log (x1 <| x_tok := t2 |>)) with (x_log x1). change (x_tok (x1 <| x_tok := t2 |>)) with t2. rewrite Hlog.
    rewrite (transfer_all_spec _ _ _ _ _ _ Htr). rewrite Z.eqb_refl. rewrite (proj2 (Z.eqb_neq self from)) by congruence.
    rewrite Hbal. rewrite !bool_decide_eq_false_2; [|intros [_ ?]; unfold bs_addr in *; lia|intros [_ ?]; congruence].
    destruct (decide (is_Some (ps_rdata L !! r))) as [Hsome|Hnone]; [lia|].
    assert (getz (au_lot tf) r = 0) as ->; [|lia].
    (* a lot in an unknown reserve cannot be loaded *)
    unfold getz. destruct (au_lot tf !! r) as [v|] eqn:Ev; [|done]. exfalso. apply Hnone.
    apply elem_of_entries in Ev. clear -Ev T G. revert L G T. induction (entries (au_lot tf)) as [|[b n] l IH]; intros L G T; [by apply elem_of_nil in Ev|].
    change (cred_lbls ((b, n) :: l)) with (LAcc b :: LCred b n :: cred_lbls l) in T.
    inversion T as [|? ? p1 ? ? M T1]; subst. inversion T1 as [|? ? p2 ? ? M' T2]; subst.
    apply elem_of_cons in Ev as [[= <- <-]|Ev].
    + inversion M; subst. eauto.
    + pose proof (pmove_good _ _ _ _ G M) as G1. pose proof (pmove_good _ _ _ _ G1 M') as G2. specialize (IH Ev _ G2 T2).
      destruct (ps_rdata L !! r) eqn:E; [eauto|]. rewrite (ptrace_none _ _ _ _ _ G (pt_cons _ _ _ _ _ _ M (ptrace_one _ _ _ _ M')) E) in IH. done.
  - change (worth_at (del_auction L 0 from) r) with (worth_at L r). lia.
Qed.

Lemma areqs_phi c self from qs s ls s' r :
  areqs c self from s qs ls s' -> good (as_p s) -> self < 0 -> from <> self -> phi self r s <= phi self r s'.
Proof.
  intros H G Hs Hf. revert G. induction H as [s|s q qs l1 s1 l2 s2 Ha _ Hq Hqs IH]; intros G; [lia|].
  pose proof (areq_phi _ _ _ _ _ _ _ r Hq G Ha Hs Hf). pose proof (ptrace_good _ _ _ _ G (areq_trace _ _ _ _ _ _ _ Hq)) as G1.
  specialize (IH G1). lia.
Qed.
