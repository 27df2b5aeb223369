(** * Requests that are not checked never worsen the borrower's health: C58 *)
From Verif Require Import Base Types Token Emitter Factory Backstop PoolReserve PoolUser PoolHealth
  PoolAuction PoolSubmit PoolEmis PoolAdmin World Facts XMove Spec PoolFrame PoolCfg PoolAccrue PoolTrace PoolInv AuctionFacts
  PoolSim PoolReq PoolHF PoolOps PoolLiq PoolReach PoolTx FrameFacts PropsAdmin BackMoves BackInv PropsBackstop PropsBackstop2
  PropsPool1 PropsPool2 PropsPool3 PropsPool4 PropsPool5 PropsPool17.

(** what a request does to the requester's shares *)
Lemma safe_contrib c self from q s ls s' r : good (as_p s) -> 0 <= rq_amt q ->
  areq c self from q s ls s' -> ~ risk_increasing q ->
  0 <= sumz (contrib KColl from r) ls /\ sumz (contrib KLiab from r) ls <= 0.
Proof.
  intros G Ha H Hn. unfold risk_increasing in Hn.
  assert (forall l : list (Addr * Z), sumz (contrib KColl from r) (cred_lbls l ++ [LAuct]) = 0 /\ sumz (contrib KLiab from r) (cred_lbls l ++ [LAuct]) = 0) as Hc.
  { intros l. rewrite !sumz_app. split; rewrite sumz_zero; try done; unfold cred_lbls; intros x Hx;
      apply elem_of_list_In, in_flat_map in Hx as ([b n] & _ & Hx); simpl in Hx; destruct Hx as [<-|[<-|[]]]; done. }
  destruct H as [L x ac chk cfg d L1 L2 d2 dl pin pout ac' Ht Hcfg M1 Hd Hfl M2 Hd2 Hut H1 H2 A1 A2| | | |]; try (exfalso; tauto).
  - cbn [as_p] in G. pose proof (pmove_good _ _ _ _ G M1) as G1. destruct (gd_rate _ G1 _ _ Hd) as (R1 & R2 & _). vals.
    rewrite !sumz_cons, !sumz_nil. cbn [contrib].
    pose proof (pos_ok_getz L1 from (req_kind (rq_type q)) (rc_index cfg) (gd_pos _ G1)) as Hcur.
    set (cur := getz (get_k (req_kind (rq_type q)) (get_pos L1 from)) (rc_index cfg)) in *. clearbody cur.
    assert (0 <= rq_amt q * 1000000000 / rd_b_rate d) by (apply Z.div_pos; lia).
    assert (0 <= rq_amt q * 1000000000 / rd_d_rate d) by (apply Z.div_pos; lia).
    unfold flow in Hfl. assert (rq_type q = 0 \/ rq_type q = 1 \/ rq_type q = 2 \/ rq_type q = 5) as Hty by lia.
    destruct Hty as [E|[E|[E|E]]]; rewrite E in Hfl |- *; simpl in Hfl; unfold req_kind; cbn [Z.leb Z.compare Pos.compare Pos.compare_cont].
    + rewrite !decide_False by (intros (? & _); discriminate). lia.
    + rewrite !decide_False by (intros (? & _); discriminate). lia.
    + injection Hfl as <- <- <-. rewrite (decide_False (P := KColl = KLiab /\ _)) by (intros (? & _); done).
      destruct (decide _); lia.
    + rewrite (decide_False (P := KLiab = KColl /\ _)) by (intros (? & _); done).
      destruct (decide _); [|lia]. destruct (cur <? _); injection Hfl as <- <- <-; lia.
  - match goal with |- context [cred_lbls ?l] => destruct (Hc l) as [-> ->] end. lia.
Qed.

Lemma safe_shares c self from qs s ls s' r : good (as_p s) -> areqs c self from s qs ls s' ->
  (forall q, q ∈ qs -> ~ risk_increasing q) ->
  shares (as_p s) KColl from r <= shares (as_p s') KColl from r /\ shares (as_p s') KLiab from r <= shares (as_p s) KLiab from r.
Proof.
  intros G H. revert G. induction H as [s|s q qs l1 s1 l2 s2 Ha _ Hq Hqs IH]; intros G Hn; [lia|].
  pose proof (areq_trace _ _ _ _ _ _ _ Hq) as T. pose proof (ptrace_good _ _ _ _ G T) as G1.
  destruct (safe_contrib _ _ _ _ _ _ _ r G Ha Hq ltac:(apply Hn; by left)) as [C1 C2].
  destruct (IH G1 ltac:(intros q' Hq'; apply Hn; by right)) as [I1 I2].
  rewrite (trace_shares _ _ _ _ KColl from r G T) in I1. rewrite (trace_shares _ _ _ _ KLiab from r G T) in I2. lia.
Qed.

Lemma eff_mono now p x pos pos' :
  good p -> (forall r, r ∈ ps_list p -> 0 <= price_of p x r) ->
  (forall (i : nat) r, ps_list p !! i = Some r -> get_coll pos (Z.of_nat i) <= get_coll pos' (Z.of_nat i) /\ get_liab pos' (Z.of_nat i) <= get_liab pos (Z.of_nat i)) ->
  eff_coll now p x pos <= eff_coll now p x pos' /\ eff_liab now p x pos' <= eff_liab now p x pos.
Proof.
  intros G Hpr Hle. unfold eff_coll, eff_liab, over_reserves.
  assert (forall i a, (i, a) ∈ indexed 0 (ps_list p) -> exists cfg, ps_rcfg p !! a = Some cfg /\ cfg_of p a = cfg /\ cfg_bounds cfg /\ 0 <= price_of p x a /\
    1000000000 <= rd_b_rate (data_at now p a) /\ 1000000000 <= rd_d_rate (data_at now p a) /\
    get_coll pos i <= get_coll pos' i /\ get_liab pos' i <= get_liab pos i) as Hi.
  { intros i a Hin. apply indexed_in in Hin as [Hi0 Hi]. rewrite Z.sub_0_r in Hi.
    destruct (cw_idx _ (gd_cfg _ G) _ _ Hi) as (cfg & Hc & _). exists cfg. split; [done|].
    split; [unfold cfg_of; by rewrite Hc|]. split; [by eapply cw_valid; [apply G|]|]. split; [apply Hpr; by eapply elem_of_list_lookup_2|].
    destruct (data_rates now p a cfg G Hc) as [? ?]. vals. split; [done|]. split; [done|].
    specialize (Hle _ _ Hi). by rewrite Z2Nat.id in Hle. }
  split; apply sumz_le; intros [i a] Hin; cbn [fst snd]; destruct (Hi _ _ Hin) as (cfg & Hc & Hcf & Hb & Hp & R1 & R2 & H1 & H2);
    assert (0 < 10 ^ rc_decimals cfg) by (apply Z.pow_pos_nonneg; destruct Hb; lia); destruct Hb as (B0 & B1 & B2 & _).
  - unfold coll_eff1, b_assets. rewrite Hcf. apply Z.div_le_mono; [done|]. apply Z.mul_le_mono_nonneg_l; [done|].
    apply Z.div_le_mono; [lia|]. apply Z.mul_le_mono_nonneg_r; [lia|]. apply Z.div_le_mono; [lia|]. apply Z.mul_le_mono_nonneg_r; lia.
  - unfold liab_eff1, d_assets. rewrite Hcf. apply cdiv_mono; [done|]. apply Z.mul_le_mono_nonneg_l; [done|].
    destruct (Z.eqb_spec (rc_l_factor cfg) 0) as [->|Hz]; [unfold cdiv; rewrite !Zdiv_0_r; lia|].
    apply cdiv_mono; [lia|]. apply Z.mul_le_mono_nonneg_r; [lia|]. apply cdiv_mono; [lia|]. apply Z.mul_le_mono_nonneg_r; lia.
Qed.

(** ** C58: a submit without risk-increasing requests, for which no health check is made,
    lowers neither the collateral value nor raises the liability value of the user *)
Theorem C58_unchecked_is_safe : forall w sg a from spender to qs out w',
  reachable w -> prices_nonneg w a ->
  exec w (OPool sg a (PSubmit from spender to qs)) = Ok (out, w') ->
  (forall q, q ∈ qs -> ~ risk_increasing q) ->
  eff_coll (w_now w) (pool w a) (w_ext w) (positions w a from) <= eff_coll (w_now w') (pool w' a) (w_ext w') (positions w' a from) /\
  eff_liab (w_now w') (pool w' a) (w_ext w') (positions w' a from) <= eff_liab (w_now w) (pool w a) (w_ext w) (positions w a from).
Proof.
  intros w sg a from spender to qs out w' Hr Hpr H Hn.
  pose proof (exec_opool _ _ _ _ _ _ H) as (_ & -> & _ & _).
  apply submit_tx in H as (G & G' & Hcfg & _ & _ & _ & _ & _ & _ & ls & x1 & ac & chk & t1 & t2 & pos & -> & -> & Hqs & _ & _ & Hx & _ & _); [|done].
  pose proof (areqs_orc _ _ _ _ _ _ _ Hqs) as (_ & _ & Ho). cbn [as_x] in Ho.
  assert (x_orc (w_ext w') = x_orc (w_ext w)) as Ho' by (rewrite Hx; done).
  destruct (values_orc (w_now w) (pool w' a) (w_ext w) (w_ext w') (positions w' a from) Ho') as [-> ->].
  pose proof (areqs_trace _ _ _ _ _ _ _ Hqs) as T. cbn [as_p] in T.
  assert (ptrace (w_now w) (pool w a) (LTouch from :: ls) (pool w' a)) as T' by (eapply pt_cons; [apply pm_touch|exact T]).
  destruct (trace_values _ _ _ _ (w_ext w) (positions w' a from) T') as (-> & _ & -> & _).
  apply eff_mono; [done|exact Hpr|]. intros i r Hi.
  eapply (safe_shares _ _ _ _ _ _ _ r) in Hqs as [S1 S2]; [|exact (touch_good _ _ G)|exact Hn]. cbn [as_p] in S1, S2. rewrite !touch_shares in S1, S2.
  assert (ps_list (pool w' a) !! i = Some r) as Hi'. { destruct Hcfg as (_ & _ & _ & _ & _ & -> & _). done. }
  rewrite (shares_at _ KColl from i r (gd_cfg _ G) Hi), (shares_at _ KColl from i r (gd_cfg _ G') Hi') in S1.
  rewrite (shares_at _ KLiab from i r (gd_cfg _ G) Hi), (shares_at _ KLiab from i r (gd_cfg _ G') Hi') in S2.
  split; [exact S1|exact S2].
Qed.
