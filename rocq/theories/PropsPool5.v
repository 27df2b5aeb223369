(** * Interest: C14, C15 *)
From Verif Require Import Base Types Token Emitter Factory Backstop PoolReserve PoolUser PoolHealth
  PoolAuction PoolSubmit PoolEmis PoolAdmin World Facts XMove Spec PoolFrame PoolCfg PoolAccrue PoolTrace PoolInv AuctionFacts
  PoolSim PoolReq PoolHF PoolOps PoolLiq PoolReach PoolTx FrameFacts PropsPool1 PropsPool2 PropsPool3 PropsPool4.

(** ** Specification: what the interest fills of a submit take out of the credit of [r]

    [A u] is the open interest auction on [u], [seq] the ledger. *)
Fixpoint sold (A : Addr -> option Auction) (from seq : Z) (qs : list Request) (r : Addr) : Z :=
  match qs with
  | [] => 0
  | q :: qs =>
      (if rq_type q =? 8 then
         match A (rq_addr q) with
         | Some au => amount_at (au_lot (filled au (percent q) (seq - au_block au))) r
         | None => 0
         end
       else 0) + sold (fun u => after_request 2 u from (A u) q) from seq qs r
  end.
(** credit of reserve [r] of the pool at [a] sold by transaction [o] *)
Definition credit_sold (w : World) (o : Op) (a r : Addr) : Z :=
  match o with
  | OPool _ a' (PSubmit from _ _ qs) => if a' =? a then sold (auction w a 2) from (w_seq w) qs r else 0
  | _ => 0
  end.

(** ** Lemmas *)
Definition sold_l (r : Addr) (l : label) : Z := match l with LCred b n => if decide (b = r) then n else 0 | _ => 0 end.
Definition nocred (l : label) : Prop := forall r n, l <> LCred r n.
Lemma nocred_sold r ls : Forall nocred ls -> sumz (sold_l r) ls = 0.
Proof. induction 1 as [|l ls H _ IH]; [done|]. rewrite sumz_cons, IH. destruct l; try done. by destruct (H a n). Qed.
Lemma lbls_nocred k u s l : Forall nocred (lbls k u s l).
Proof. induction l; simpl; [constructor|]. by repeat constructor. Qed.
Lemma rm_nocred u c l : Forall nocred (rm_lbls u c l). Proof. apply Forall_app. split; apply lbls_nocred. Qed.
Lemma add_nocred u c l : Forall nocred (add_lbls u c l). Proof. apply Forall_app. split; apply lbls_nocred. Qed.
Lemma bd_nocred u b l es : Forall nocred (bd_lbls u b l es).
Proof. induction es as [|e es IH]; simpl; [constructor|]. destruct (l !! _); [|done]. by repeat constructor. Qed.
Lemma claim_nocred u es : Forall nocred (claim_lbls u es).
Proof. induction es; simpl; constructor; done. Qed.
Lemma emis_nocred u ls : only_emis u ls -> Forall nocred ls.
Proof. intros H. apply Forall_forall. intros l Hl. by destruct (H l Hl) as (? & ? & ->). Qed.
Lemma sold_cred r l : sumz (sold_l r) (cred_lbls l) = sumz (fun e : Addr * Z => if decide (e.1 = r) then e.2 else 0) l.
Proof. induction l as [|[b n] l IH]; [done|]. cbn [cred_lbls flat_map app]. fold (cred_lbls l). rewrite !sumz_cons, IH. cbn [sold_l fst snd]. lia. Qed.

(** the stored data of a reserve is the old one or its accrual, up to supplies and credit *)
Definition moved (now rate : Z) (cfg : ResConfig) (d d' : ResData) (s : Z) : Prop :=
  exists d0, (d0 = d \/ accrue now rate cfg d = Ok d0) /\
    rd_b_rate d' = rd_b_rate d0 /\ rd_d_rate d' = rd_d_rate d0 /\ rd_ir_mod d' = rd_ir_mod d0 /\ rd_last_time d' = rd_last_time d0 /\
    rd_credit d' = rd_credit d0 - s /\ (rd_last_time d' <> now -> d' = d).

Lemma moved_refl now rate cfg d : moved now rate cfg d d 0.
Proof. exists d. split; [by left|]. repeat split; lia || done. Qed.

Lemma trace_moved now p ls p' r cfg d : ptrace now p ls p' -> ps_rcfg p !! r = Some cfg -> ps_rdata p !! r = Some d ->
  exists d', ps_rdata p' !! r = Some d' /\ moved now (pc_bstop_rate (ps_config p)) cfg d d' (sumz (sold_l r) ls).
Proof.
  intros T Hc Hd. remember (pc_bstop_rate (ps_config p)) as rate eqn:Hrate.
  assert (forall s d1, ps_rdata p !! r = Some d1 -> moved now rate cfg d d1 s ->
    exists d', ps_rdata p' !! r = Some d' /\ moved now rate cfg d d' (s + sumz (sold_l r) ls)) as Hg.
  { clear Hd. induction T as [|p l p1 ls p2 M T IH]; intros s d1 Hd1 Hm.
    - exists d1. rewrite sumz_nil, Z.add_0_r. done.
    - assert (ps_rcfg p1 !! r = Some cfg /\ pc_bstop_rate (ps_config p1) = rate) as [Hc1 Hr1].
      { pose proof (ptrace_cfg _ _ _ _ (ptrace_one _ _ _ _ M)) as (_ & _ & _ & _ & E1 & _ & E2 & _). rewrite E1, E2. done. }
      assert (exists d2, ps_rdata p1 !! r = Some d2 /\ moved now rate cfg d d2 (s + sold_l r l)) as (d2 & Hd2 & Hm2).
      { destruct Hm as (d0 & Hor & E1 & E2 & E3 & E4 & E5 & E6). clear IH T Hc1 Hr1.
        destruct M as [a cfg0 da d' H1 H2 H3|k u a dl cfg0 da n p1 H1 H2 H3 H4 H5 H6 H7|a n da H1 H2 H3|k u a cfg0 da cl n p1 H1 H2 H3|u|m]; cbn [sold_l ps_rdata set].
        - simpl. rewrite Z.add_0_r. destruct (decide (a = r)) as [->|]; [rewrite lookup_insert|rewrite lookup_insert_ne by done; exists d1; split; [done|]; exists d0; done].
          assert (da = d1) by congruence. assert (cfg0 = cfg) by congruence. subst da cfg0.
          exists d'. split; [done|]. destruct (decide (rd_last_time d1 = now)) as [E|E].
          + rewrite accrue_id in H3 by done. injection H3 as <-. exists d0. done.
          + pose proof (E6 E) as Ed. subst d1. exists d'. rewrite <- Hrate in H3. split; [by right|]. split; [done|]. split; [done|]. split; [done|]. split; [done|].
            apply accrue_last in H3 as Hl. split; [|intros; congruence].
            destruct Hor as [->|Hor]; [|apply accrue_last in Hor; congruence]. lia.
        - simpl. rewrite Z.add_0_r. destruct (decide (a = r)) as [->|]; [rewrite lookup_insert|rewrite lookup_insert_ne by done; exists d1; split; [done|]; exists d0; done].
          assert (da = d1) by congruence. subst da. eexists. split; [done|]. exists d0. destruct k; simpl; (split; [done|]); (do 5 (split; [done|])); intros; congruence.
        - simpl. destruct (decide (a = r)) as [->|]; [rewrite lookup_insert|rewrite lookup_insert_ne by done; exists d1; split; [done|]; rewrite Z.add_0_r; exists d0; done].
          assert (da = d1) by congruence. subst da. eexists. split; [done|]. exists d0. simpl. split; [done|]. do 4 (split; [done|]). split; [lia|congruence].
        - rewrite Z.add_0_r. apply p_emissions_emis in H3. destruct (emis_ecfg _ _ H3) as (_ & -> & _). exists d1. split; [done|]. exists d0. done.
        - simpl. rewrite Z.add_0_r. exists d1. split; [done|]. exists d0. done.
        - simpl. rewrite Z.add_0_r. exists d1. split; [done|]. exists d0. done. }
      destruct (IH Hc1 (eq_sym Hr1) _ _ Hd2 Hm2) as (d' & Hd' & Hm'). exists d'. split; [done|]. rewrite sumz_cons, Z.add_assoc. done. }
  destruct (Hg 0 d Hd (moved_refl _ _ _ _)) as (d' & Hd' & Hm). exists d'. by rewrite Z.add_0_l in Hm.
Qed.

(** the credit labels of a submit *)
Lemma areq_sold c self from q s ls s' r : areq c self from q s ls s' ->
  sumz (sold_l r) ls = if rq_type q =? 8 then
    match ps_auct (as_p s) !! (2, rq_addr q) with Some au => amount_at (au_lot (filled au (percent q) (c_seq c - au_block au))) r | None => 0 end else 0.
Proof.
  intros H. destruct H as [L x ac chk cfg d L1 L2 d2 dl pin pout ac' Hty Hc M1 Hd1 Hfl M2|L x ac chk au tf rem L1 Hty Hne Hau Hs T
    |L x ac chk au tf rem L1 L2 btok lot x1 x2 m Hty Hne Hnb Hau Hs T1 T2|L x ac chk au tf rem L1 btok bid x1 t2 Hty Hne Hnb Hau Hs Hb1 Hb2 Hb3 Hb4 T|L x ac chk au Hty Hau];
    cbn [as_p]; try rewrite Hty.
  - rewrite (proj2 (Z.eqb_neq _ 8)) by lia. by rewrite !sumz_cons, sumz_nil.
  - simpl (6 =? 8). apply nocred_sold. constructor; [done|]. apply Forall_app. split; [apply Forall_app; split; [apply rm_nocred|apply add_nocred]|by repeat constructor].
  - simpl (7 =? 8). apply nocred_sold. constructor; [done|]. apply Forall_app. split; [|by repeat constructor].
    apply Forall_app. split; [apply Forall_app; split; [apply rm_nocred|apply add_nocred]|apply rm_nocred].
  - simpl (8 =? 8). rewrite Hau, sumz_app, sumz_cons, sumz_nil. cbn [sold_l]. rewrite sold_cred.
    change (as_u64 (rq_amt q)) with (percent q) in Hs. apply scale_filled in Hs as (Hp & Hbl & -> & _); [|by apply Z.mod_pos_bound].
    rewrite (sum_entries _ r (fun v => v)). unfold amount_at. destruct (au_lot _ !! r); simpl; lia.
  - done.
Qed.
Lemma areqs_sold c self from qs : forall s ls s' r A, areqs c self from s qs ls s' ->
  (forall u, A u = ps_auct (as_p s) !! (2, u)) -> sumz (sold_l r) ls = sold A from (c_seq c) qs r.
Proof.
  induction qs as [|q qs IH]; intros s ls s' r A H HA; inversion H as [|? ? ? l1 s1 l2 ? Hamt Hal Hq Hqs]; subst; [done|].
  rewrite sumz_app. cbn [sold]. rewrite (areq_sold _ _ _ _ _ _ _ r Hq), HA. f_equal.
  apply (IH _ _ _ _ _ Hqs). intros u. rewrite HA. destruct (areq_auct _ _ _ _ _ _ _ 2 u Hq ltac:(lia)) as (-> & _). done.
Qed.

(** every transaction *)
Lemma step_reserve w o out w' a r cfg d : reachable w -> exec w o = Ok (out, w') ->
  ps_rcfg (pool w a) !! r = Some cfg -> reserve w a r = Some d ->
  exists d' d0, reserve w' a r = Some d' /\ (d0 = d \/ accrue (w_now w) (pc_bstop_rate (ps_config (pool w a))) cfg d = Ok d0) /\
    rd_b_rate d' = rd_b_rate d0 /\ rd_d_rate d' = rd_d_rate d0 /\
    (rd_ir_mod d' = rd_ir_mod d0 \/ (rd_ir_mod d' = 1000000000 /\ exists sg, o = OPool sg a (PSetRes r))) /\
    rd_last_time d' = rd_last_time d0 /\ rd_credit d' = rd_credit d0 - credit_sold w o a r /\ (rd_last_time d' <> w_now w -> d' = d).
Proof.
  intros Hr H Hc Hd. pose proof (init_of_data _ _ _ _ Hr Hd) as G. pose proof H as H0. pose proof (gd_init _ G) as Ei.
  assert (forall d' s, reserve w' a r = Some d' -> moved (w_now w) (pc_bstop_rate (ps_config (pool w a))) cfg d d' s -> s = credit_sold w o a r ->
    exists d' d0, reserve w' a r = Some d' /\ (d0 = d \/ accrue (w_now w) (pc_bstop_rate (ps_config (pool w a))) cfg d = Ok d0) /\
    rd_b_rate d' = rd_b_rate d0 /\ rd_d_rate d' = rd_d_rate d0 /\
    (rd_ir_mod d' = rd_ir_mod d0 \/ (rd_ir_mod d' = 1000000000 /\ exists sg, o = OPool sg a (PSetRes r))) /\
    rd_last_time d' = rd_last_time d0 /\ rd_credit d' = rd_credit d0 - credit_sold w o a r /\ (rd_last_time d' <> w_now w -> d' = d)) as Hfin.
  { intros d' s Hd' (d0 & ? & ? & ? & ? & ? & ? & ?) <-. exists d', d0. tauto. }
  assert (forall s, reserve w' a r = reserve w a r -> s = credit_sold w o a r -> s = 0 -> 
    exists d' d0, reserve w' a r = Some d' /\ (d0 = d \/ accrue (w_now w) (pc_bstop_rate (ps_config (pool w a))) cfg d = Ok d0) /\
    rd_b_rate d' = rd_b_rate d0 /\ rd_d_rate d' = rd_d_rate d0 /\
    (rd_ir_mod d' = rd_ir_mod d0 \/ (rd_ir_mod d' = 1000000000 /\ exists sg, o = OPool sg a (PSetRes r))) /\
    rd_last_time d' = rd_last_time d0 /\ rd_credit d' = rd_credit d0 - credit_sold w o a r /\ (rd_last_time d' <> w_now w -> d' = d)) as Hsame.
  { intros s E <- ->. rewrite E. exists d, d. split; [done|]. split; [by left|]. do 2 (split; [done|]). split; [by left|]. split; [done|]. split; [lia|done]. }
  apply (exec_pool _ _ _ _ a) in H.
  destruct H as [o out w' H Hno|sg po out px w' Hsg Hty Hp H Hw' _ _|sg admin salt orc rate mp w' -> Hn _ _ H|t u w' H|q w' H].
  - apply (Hsame 0); [unfold reserve; by rewrite H| |done]. destruct o as [| sg a' po | | | | | | | |]; try done. simpl. destruct po; try done.
    destruct (Z.eqb_spec a' a) as [->|]; [|done]. exfalso. by destruct (Hno sg (PSubmit from spender to reqs)).
  - pose proof (p_exec_data _ _ (mkPX (pool w a) (w_ext w)) _ _ _ G Hty H) as Hdd. simpl in Hdd.
    destruct Hdd as [(Hm & _)|[(b & -> & Hs)|(Hmv & _ & Hk)]].
    + assert (forall ls p1, ptrace (w_now w) (pool w a) ls p1 -> ps_rdata p1 = ps_rdata (px_p px) -> Forall nocred ls ->
        (forall x1 x2 x3 x4, po <> PSubmit x1 x2 x3 x4) ->
        exists d' d0, reserve w' a r = Some d' /\ (d0 = d \/ accrue (w_now w) (pc_bstop_rate (ps_config (pool w a))) cfg d = Ok d0) /\
        rd_b_rate d' = rd_b_rate d0 /\ rd_d_rate d' = rd_d_rate d0 /\
        (rd_ir_mod d' = rd_ir_mod d0 \/ (rd_ir_mod d' = 1000000000 /\ exists sg0, OPool sg a po = OPool sg0 a (PSetRes r))) /\
        rd_last_time d' = rd_last_time d0 /\ rd_credit d' = rd_credit d0 - credit_sold w (OPool sg a po) a r /\ (rd_last_time d' <> w_now w -> d' = d)) as Htr.
      { intros ls p1 T Hrd Hnc Hns. destruct (trace_moved _ _ _ _ r cfg d T Hc Hd) as (d' & Hd' & Hmo). rewrite (nocred_sold r ls Hnc) in Hmo.
        apply (Hfin d' 0); [unfold reserve; rewrite Hw', <- Hrd; exact Hd'|exact Hmo|]. simpl. destruct po; try done. by destruct (Hns from spender to reqs). }
      destruct po; simpl in Hm; try discriminate; simpl in H; rewrite Ei in H; simpl in H.
      * clear Htr. pose proof H0 as H1. apply submit_tx in H1 as (_ & _ & _ & _ & _ & _ & _ & _ & _ & ls & x1 & ac & chk & t1 & t2 & pos & _ & _ & Hqs & _); [|done].
        pose proof (areqs_trace _ _ _ _ _ _ _ Hqs) as T. cbn [as_p] in T.
        destruct (trace_moved _ _ _ _ r cfg d T Hc Hd) as (d' & Hd' & Hmo).
        apply (Hfin d' _ Hd' Hmo). simpl. rewrite Z.eqb_refl.
        rewrite (areqs_sold _ _ _ _ _ _ _ r (auction w a 2) Hqs); [done|]. intros u. done.
      * unfold on_pool in H. apply bind_ok in H as (p1 & E & H). injection H as <- <-.
        apply bad_debt_sim in E as (_ & _ & _ & T); [|exact G]. refine (Htr _ _ T eq_refl _ _); [|done].
        repeat (constructor; [done|]). apply bd_nocred.
      * unfold ret_z in H. apply bind_ok in H as ([z px1] & E & H). injection H as <- <-.
        apply claim_sim in E as (_ & es & _ & _ & T & _); [|exact G|by apply forallb_nonneg]. refine (Htr _ _ T eq_refl (claim_nocred _ _) _). done.
      * apply bind_ok in H as ([au p1] & E & H). injection H as <- <-. simpl in Hty. apply in_u64_iff in Hty.
        apply create_liq_sim in E; [|exact G|lia]. cbv zeta in E.
        destruct E as (_ & _ & Hno & _ & Hb & _ & _ & _ & _ & ls & p2 & Ho & T & ->).
        refine (Htr _ _ T eq_refl (emis_nocred _ _ Ho) _). done.
      * apply bind_ok in H as ([au p1] & E & H). injection H as <- <-. apply create_bad_debt_auct in E as ->.
        refine (Htr [] _ (pt_nil _ _) eq_refl ltac:(constructor) _). done.
      * apply bind_ok in H as ([au p1] & E & H). injection H as <- <-. apply create_interest_auct in E as ->.
        refine (Htr [] _ (pt_nil _ _) eq_refl ltac:(constructor) _). done.
    + destruct Hs as (cfg' & _ & _ & _ & _ & _ & _ & _ & _ & _ & _ & [(Hno & _ & _ & Hrd)|(cfg0 & d0 & d' & Hc0 & Hd0 & _ & _ & _ & Hac & m & Hm & Hrd)]).
      * apply (Hsame 0); [|done|done]. unfold reserve. rewrite Hw', Hrd. destruct (decide (b = r)) as [->|]; [congruence|]. by rewrite lookup_insert_ne.
      * destruct (decide (b = r)) as [->|]; [|apply (Hsame 0); [|done|done]; unfold reserve; rewrite Hw', Hrd; by rewrite lookup_insert_ne].
        assert (cfg0 = cfg) by congruence. unfold reserve in Hd. assert (d0 = d) by congruence. subst cfg0 d0.
        exists (d' <| rd_ir_mod := m |>), d'. unfold reserve. rewrite Hw', Hrd, lookup_insert. split; [done|]. split; [by right|]. simpl. split; [done|]. split; [done|].
        split; [destruct Hm as [->| ->]; [by left|right; eauto]|]. split; [done|]. split; [lia|].
        intros Hlt. exfalso. apply Hlt. destruct (accrue_spec _ _ _ _ _ (good_rd _ _ _ G Hd) (cw_valid _ (gd_cfg _ G) _ _ Hc) (cw_rate _ (gd_cfg _ G)) Hac) as (_ & _ & _ & E & _). exact E.
    + apply (Hsame 0); [|destruct po; try done|done]. unfold reserve. rewrite Hw'. by destruct Hk as (-> & _).
  - exfalso. unfold pool in G. rewrite Hn in G. apply gd_init in G. discriminate.
  - apply (Hsame 0); [unfold reserve; by rewrite H|done|done].
  - apply (Hsame 0); [unfold reserve; by rewrite H|done|done].
Qed.

(** ** C14: interest is split between suppliers and backstop without creation

    The interest of a transaction is the growth of the outstanding dTokens' value. *)
Theorem C14_interest_split : forall w o out w' a r d d',
  reachable w -> exec w o = Ok (out, w') -> reserve w a r = Some d -> reserve w' a r = Some d' ->
  let interest := cdiv (rd_d_supply d * rd_d_rate d') 1000000000 - cdiv (rd_d_supply d * rd_d_rate d) 1000000000 in
  let to_backstop := interest * pc_bstop_rate (ps_config (pool w a)) / 10000000 in
  0 <= to_backstop <= interest /\
  rd_credit d' = rd_credit d + to_backstop - credit_sold w o a r /\
  rd_b_supply d * (rd_b_rate d' - rd_b_rate d) + 1000000000 * to_backstop <= 1000000000 * interest /\
  (rd_d_supply d = 0 \/ rd_last_time d = w_now w -> rd_b_rate d' = rd_b_rate d /\ rd_d_rate d' = rd_d_rate d).
Proof.
  intros w o out w' a r d d' Hr H Hd Hd'. cbv zeta.
  pose proof (init_of_data _ _ _ _ Hr Hd) as G. destruct (proj2 (gd_dom _ G r) (ex_intro _ _ Hd)) as [cfg Hc].
  destruct (step_reserve _ _ _ _ _ _ _ _ Hr H Hc Hd) as (d1 & d0 & H1 & Hor & E1 & E2 & _ & _ & E5 & _).
  assert (d1 = d') by congruence. subst d1. rewrite E1, E2, E5.
  pose proof (cw_rate _ (gd_cfg _ G)) as Hrate.
  destruct Hor as [->|Hac].
  - rewrite !Z.sub_diag, Z.mul_0_l, Z.mul_0_r. change (0 / 10000000) with 0. split; [lia|]. split; [lia|]. split; [lia|done].
  - destruct (accrue_spec _ _ _ _ _ (good_rd _ _ _ G Hd) (cw_valid _ (gd_cfg _ G) _ _ Hc) Hrate Hac) as (_ & S1 & S2 & S3 & R1 & R2 & A1 & A2 & A3 & A4 & A5).
    unfold accrued, debt, claims9 in *. rewrite S1, S2 in *. rewrite A2 in A3.
    set (i := cdiv (rd_d_supply d * rd_d_rate d0) 1000000000 - cdiv (rd_d_supply d * rd_d_rate d) 1000000000) in *.
    assert (0 <= i * pc_bstop_rate (ps_config (pool w a)) / 10000000 <= i).
    { split; [apply Z.div_pos; nia|]. apply Z.div_le_upper_bound; nia. }
    split; [done|]. split; [lia|]. split; [lia|].
    intros Hz. rewrite A5 by (destruct Hz as [?|?]; [by left|by right]). done.
Qed.

(** ** C15: the interest curve is monotone in utilization *)

(** utilization of a reserve (7 decimals, rounded up); 0 if nothing is supplied *)
Definition util_of (d : ResData) : Z :=
  if rd_b_supply d =? 0 then 0
  else cdiv (cdiv (rd_d_supply d * rd_d_rate d) 1000000000 * 10000000) (rd_b_supply d * rd_b_rate d / 1000000000).

(** the accrual factor (9 decimals) for [now - last] seconds at utilization [u] and modifier [m] *)
Theorem C15_accrual_monotone : forall now cfg u1 u2 m last a1 n1 a2 n2,
  cfg_bounds cfg -> 0 < u1 <= u2 -> 100000000 <= m <= 10000000000 ->
  calc_accrual now cfg u1 m last = Ok (a1, n1) -> calc_accrual now cfg u2 m last = Ok (a2, n2) ->
  1000000000 <= a1 <= a2 /\ n1 <= n2.
Proof.
  intros now cfg u1 u2 m last a1 n1 a2 n2 Hc Hu Hm H1 H2.
  apply calc_accrual_spec in H1 as (i1 & C1 & L1 & N1 & ->). apply calc_accrual_spec in H2 as (i2 & C2 & L2 & N2 & ->).
  assert (0 < u1) as Hu1 by lia. assert (0 <= m) as Hm0 by lia. pose proof (cur_rate_nonneg _ _ _ _ Hc Hu1 Hm0 C1).
  pose proof (cur_rate_mono _ _ _ _ _ _ Hc Hu Hm0 C1 C2).
  assert (0 <= (now - last) * 1000000000 ÷ 31536000) by (apply Z.quot_pos; lia).
  split; [split|].
  - pose proof (cdiv_nonneg ((now - last) * 1000000000 ÷ 31536000 * (i1 * 100)) 1000000000 ltac:(lia) ltac:(nia)). lia.
  - assert (cdiv ((now - last) * 1000000000 ÷ 31536000 * (i1 * 100)) 1000000000 <= cdiv ((now - last) * 1000000000 ÷ 31536000 * (i2 * 100)) 1000000000) by (apply cdiv_mono; nia). lia.
  - assert (0 <= (now - last) * 1000000000) as Ht by lia. exact (next_ir_mod_mono _ _ _ _ _ _ _ Hc Ht (proj2 Hu) Hm N1 N2).
Qed.

Lemma accrue_cases now rate cfg d d' : rd_ok d -> accrue now rate cfg d = Ok d' ->
    (rd_d_rate d' = rd_d_rate d /\ (now = rd_last_time d \/ util_of d = 0)) \/
    (now <> rd_last_time d /\ 0 < util_of d /\ exists a n, calc_accrual now cfg (util_of d) (rd_ir_mod d) (rd_last_time d) = Ok (a, n) /\
       rd_d_rate d' = cdiv (a * rd_d_rate d) 1000000000).
Proof.
  intros W H. unfold accrue in H. destruct (Z.eqb_spec now (rd_last_time d)) as [E|E]; [injection H as <-; by left; eauto|].
    unfold util_of. destruct (Z.eqb_spec (rd_b_supply d) 0) as [Eb|Eb]; [injection H as <-; left; eauto|].
    apply bind_ok in H as (u & Eu & H). apply utilization_spec in Eu as (-> & Hcl & Hu0 & _); [|done|pose proof (ro_bs d W); lia].
    unfold debt, claims9 in *. set (u := cdiv _ _) in *. destruct (Z.eqb_spec u 0) as [Hz|Hz]; [injection H as <-; left; eauto|].
    right. split; [done|]. split; [clear -Hu0 Hz; lia|]. clear Hu0 Hz. mon H.
    match goal with E : calc_accrual _ _ _ _ _ = Ok (?la, ?nm) |- _ => exists la, nm; split; [exact E|] end.
    match goal with E : fmul_ceil _ _ SCALAR_9 = Ok ndr |- _ => apply fmul_ceil_ok in E as [-> _]; [|vals; lia] end.
    destruct (0 <? acc); mon H; done.
Qed.

(** two states of a reserve that differ in their utilization only: the more utilized one
    ends with the higher dToken rate *)
Theorem C15_debt_rate_monotone : forall now rate cfg d1 d2 d1' d2',
  cfg_bounds cfg -> rd_ok d1 -> rd_ok d2 ->
  rd_d_rate d1 = rd_d_rate d2 -> rd_ir_mod d1 = rd_ir_mod d2 -> rd_last_time d1 = rd_last_time d2 ->
  util_of d1 <= util_of d2 ->
  accrue now rate cfg d1 = Ok d1' -> accrue now rate cfg d2 = Ok d2' -> rd_d_rate d1' <= rd_d_rate d2'.
Proof.
  intros now rate cfg d1 d2 d1' d2' Hc W1 W2 Er Em El Hu H1 H2.
  destruct (accrue_cases _ _ _ _ _ W1 H1) as [(E1 & Z1)|(N1 & U1 & a1 & n1 & A1 & E1)], (accrue_cases _ _ _ _ _ W2 H2) as [(E2 & Z2)|(N2 & U2 & a2 & n2 & A2 & E2)].
  - lia.
  - rewrite E1, E2, Er. destruct (C15_accrual_monotone _ _ _ _ _ _ _ _ _ _ Hc (conj U2 (Z.le_refl _)) (ro_ir _ W2) A2 A2) as [? _].
    rewrite <- (cdiv_exact (rd_d_rate d2) 1000000000) at 1 by lia. apply cdiv_mono; [lia|]. pose proof (ro_d _ W2). vals. nia.
  - exfalso. destruct Z2 as [Z2|Z2]; [congruence|lia].
  - rewrite E1, E2, Er. rewrite Em, El in A1.
    destruct (C15_accrual_monotone _ _ _ _ _ _ _ _ _ _ Hc (conj U1 Hu) (ro_ir _ W2) A1 A2) as [? _].
    apply cdiv_mono; [lia|]. pose proof (ro_d _ W2). vals. nia.
Qed.
