(** * The rates of a ledger, and the order of submissions within it: C72 *)
From Verif Require Import Base Types Token Emitter Factory Backstop PoolReserve PoolUser PoolHealth
  PoolAuction PoolSubmit PoolEmis PoolAdmin World Facts XMove Spec PoolFrame PoolCfg PoolAccrue PoolTrace PoolInv AuctionFacts
  PoolSim PoolReq PoolHF PoolOps PoolLiq PoolReach PoolTx PropsAdmin BackMoves PropsPool1 PropsPool2 PropsPool3 PropsPool4 PropsPool28.

(** ** Rates are fixed for the whole ledger *)
Lemma res_set_rates now b p p' r : res_set now b p p' -> is_Some (ps_rcfg p !! r) -> 
  rd_b_rate (data_at now p' r) = rd_b_rate (data_at now p r) /\ rd_d_rate (data_at now p' r) = rd_d_rate (data_at now p r).
Proof.
  intros (cfg' & Hrc & _ & _ & _ & _ & _ & _ & _ & _ & Hcf & [(Hno & _ & _ & Hrd)|(cfg & d0 & d' & Hc & Hd0 & _ & _ & _ & Hac & m & _ & Hrd)]) [cr Hr];
    unfold data_at; rewrite Hrc, Hrd, Hcf.
  - destruct (decide (b = r)) as [->|]; [congruence|]. by rewrite !lookup_insert_ne.
  - destruct (decide (b = r)) as [->|]; [|by rewrite !lookup_insert_ne]. rewrite !lookup_insert, Hc, Hd0, Hac.
    rewrite accrue_id; [done|]. simpl. by eapply accrue_last.
Qed.
Lemma update_rates now p p' r : kept p p' -> pc_bstop_rate (ps_config p') = pc_bstop_rate (ps_config p) -> data_at now p' r = data_at now p r.
Proof. intros (H1 & _ & H2 & _) H3. unfold data_at. by rewrite H1, H2, H3. Qed.
Lemma p_exec_take c self px po out px' : good (px_p px) -> ty_pop po = true -> moves_of po = false -> (forall x y, po <> PUpdatePool x y) -> (forall a, po <> PSetRes a) ->
  p_exec c self px po = Ok (out, px') -> pc_bstop_rate (ps_config (px_p px')) = pc_bstop_rate (ps_config (px_p px)).
Proof.
  intros G Hty Hm Hu Hs H. apply p_exec_cfg in H as [_ H]. cbv zeta in H. destruct po; simpl in Hm; try discriminate.
  - apply initialize_spec in H as (_ & Hi' & _). pose proof (gd_init _ G). congruence.
  - unfold p_set_admin in H. mon H. by rewrite <- H.
  - by destruct (Hu rate max_positions).
  - unfold p_queue_reserve in H. mon H. by rewrite <- H.
  - unfold p_cancel_reserve in H. mon H. by rewrite <- H.
  - by destruct (Hs asset).
  - destruct H as (s & H & _). unfold p_update_status in H. mon H. done.
  - apply set_status_range in H as (_ & _ & ->). done.
  - by rewrite H.
  - apply set_emis_spec in H as (_ & -> & _); [reflexivity|exact Hty].
Qed.

(** no time passes and the take rate of the pool at [a] is not changed *)
Definition same_ledger (a : Addr) (o : Op) : Prop :=
  (forall dt ds, o <> OTick dt ds) /\ (forall sg x y, o <> OPool sg a (PUpdatePool x y)).

Lemma step_rates_now w o out w' a r d : reachable w -> exec w o = Ok (out, w') -> same_ledger a o -> reserve w a r = Some d ->
  b_rate_now w' a r = b_rate_now w a r /\ d_rate_now w' a r = d_rate_now w a r.
Proof.
  intros Hr H [Ht Hu] Hd. pose proof (init_of_data _ _ _ _ Hr Hd) as G. unfold reserve in *.
  assert (is_Some (ps_rcfg (pool w a) !! r)) as Hc by (apply (gd_dom _ G r); eauto).
  assert (w_now w' = w_now w) as Hn.
  { unfold exec in H. destruct o; mon H; simpl; try done; try (by destruct (Ht dt dseq)).
    all: destruct (w_pools w !! _); mon H; done. }
  unfold b_rate_now, d_rate_now. rewrite Hn.
  apply (exec_pool _ _ _ _ a) in H.
  destruct H as [o out w' H _|sg po out px w' Hsg Hty Hp H Hw' _ _|sg admin salt orc rate mp w' -> Hno _ _ H|t u w' H|q w' H].
  - by rewrite H.
  - rewrite Hw'. pose proof H as H0. apply p_exec_data in H; [|done|done]. simpl in H.
    destruct H as [(_ & ls & T)|[(b & _ & Hs)|(Hm & Hns & Hk)]].
    + by apply (trace_data _ _ _ _ r) in T.
    + by apply (res_set_rates _ _ _ _ r) in Hs.
    + rewrite (update_rates _ _ _ _ Hk); [done|]. eapply p_exec_take in H0; [exact H0|done|done|done| |done]. intros x y ->. by apply (Hu sg x y).
  - exfalso. unfold pool in G. rewrite Hno in G. apply gd_init in G. discriminate.
  - by rewrite H.
  - by rewrite H.
Qed.

(** ** C72: the exchange rates of a ledger are fixed *)
(** Whatever is done while no time passes - by anybody, in any number of calls - the rates at which shares of a reserve are
    bought, redeemed and owed stay the same, unless the admin changes the take rate. *)
Theorem C72_rates_of_a_ledger : forall w l a r d, reachable w -> reserve w a r = Some d -> Forall (same_ledger a) l ->
  b_rate_now (run w l) a r = b_rate_now w a r /\ d_rate_now (run w l) a r = d_rate_now w a r.
Proof.
  intros w l a r d Hr Hd Hl. revert w d Hr Hd. induction l as [|o l IH]; intros w d Hr Hd; [done|]. apply Forall_cons in Hl as [Ho Hl].
  simpl. unfold step. destruct (exec w o) as [[out w1]|e] eqn:E; [|by eapply IH].
  destruct (step_rates _ _ _ _ _ _ _ Hr E Hd) as (d1 & Hd1 & _). destruct (step_rates_now _ _ _ _ _ _ _ Hr E Ho Hd) as [B D].
  destruct (IH Hl w1 d1 (reachable_step _ _ _ _ Hr E) Hd1) as [B1 D1]. split; congruence.
Qed.

(** ** The order of two accounts' submissions *)
(** what a submission does to the reserves: those it touches have their interest accrued and their share supplies changed *)
Definition plus (d : ResData) (b l : Z) : ResData := d <| rd_b_supply := rd_b_supply d + b |> <| rd_d_supply := rd_d_supply d + l |>.
Record effect := mkEffect { ef_on : Addr -> bool; ef_b : Addr -> Z; ef_d : Addr -> Z }.
Definition has_effect (now : Z) (p q : PoolSt) (e : effect) : Prop :=
  forall r, (ef_on e r = true -> is_Some (ps_rcfg p !! r) /\ is_Some (ps_rdata p !! r) /\ rd_last_time (data_at now p r) = now) /\
    ps_rdata q !! r = (if ef_on e r then Some (plus (data_at now p r) (ef_b e r) (ef_d e r)) else ps_rdata p !! r).
Definition both (e1 e2 : effect) : effect :=
  mkEffect (fun r => ef_on e1 r || ef_on e2 r) (fun r => (if ef_on e1 r then ef_b e1 r else 0) + (if ef_on e2 r then ef_b e2 r else 0))
    (fun r => (if ef_on e1 r then ef_d e1 r else 0) + (if ef_on e2 r then ef_d e2 r else 0)).
Lemma plus_plus d b l b' l' : plus (plus d b l) b' l' = plus d (b + b') (l + l').
Proof. destruct d. unfold plus, set. simpl. f_equal; lia. Qed.
Lemma plus_0 d : plus d 0 0 = d.
Proof. destruct d. unfold plus, set. simpl. f_equal; lia. Qed.
Lemma effect_data now p q e r : has_effect now p q e -> ps_rcfg q = ps_rcfg p -> ps_config q = ps_config p ->
  data_at now q r = if ef_on e r then plus (data_at now p r) (ef_b e r) (ef_d e r) else data_at now p r.
Proof.
  intros H Hc Hf. destruct (H r) as [H1 H2]. destruct (ef_on e r) eqn:E.
  - destruct (H1 eq_refl) as ([cfg A] & [d B] & L). unfold data_at at 1. rewrite Hc, Hf, A, H2. by rewrite accrue_id.
  - unfold data_at. by rewrite Hc, Hf, H2.
Qed.
Lemma effect_both now p q s e1 e2 : has_effect now p q e1 -> has_effect now q s e2 -> ps_rcfg q = ps_rcfg p -> ps_config q = ps_config p ->
  has_effect now p s (both e1 e2).
Proof.
  intros H1 H2 Hc Hf r. pose proof (effect_data _ _ _ _ r H1 Hc Hf) as HD. destruct (H1 r) as [A1 B1]. destruct (H2 r) as [A2 B2]. rewrite HD in A2, B2. simpl.
  destruct (ef_on e1 r) eqn:E1, (ef_on e2 r) eqn:E2; simpl; rewrite ?Hc, ?B1 in *.
  - split; [intros _; by apply A1|]. rewrite B2. by rewrite plus_plus.
  - split; [intros _; by apply A1|]. rewrite B2. by rewrite !Z.add_0_r.
  - split; [intros _; by apply A2|]. by rewrite B2.
  - split; [done|]. by rewrite B2.
Qed.

(** two states that look the same to [from] *)
Definition view (now : Z) (from : Addr) (p1 p2 : PoolSt) : Prop :=
  ps_rcfg p1 = ps_rcfg p2 /\ ps_config p1 = ps_config p2 /\ get_pos p1 from = get_pos p2 from /\
  forall r, rd_b_rate (data_at now p1 r) = rd_b_rate (data_at now p2 r) /\ rd_d_rate (data_at now p1 r) = rd_d_rate (data_at now p2 r).

Definition one_effect (q : Request) (dl : Z) : effect :=
  mkEffect (fun r => r =? rq_addr q) (fun _ => match req_kind (rq_type q) with KLiab => 0 | _ => dl end)
    (fun _ => match req_kind (rq_type q) with KLiab => dl | _ => 0 end).
Lemma areq_plain_effect c self from q s ls s' : plain q -> areq c self from q s ls s' ->
  exists cfg dl pin pout, ps_rcfg (as_p s) !! rq_addr q = Some cfg /\
    flow (rq_type q) (data_at (c_now c) (as_p s) (rq_addr q)) (getz (get_k (req_kind (rq_type q)) (get_pos (as_p s) from)) (rc_index cfg)) (rq_amt q) = (dl, pin, pout) /\
    has_effect (c_now c) (as_p s) (as_p s') (one_effect q dl) /\
    get_pos (as_p s') from = (let k := req_kind (rq_type q) in let pos := get_pos (as_p s) from in
      set_k k (put (get_k k pos) (rc_index cfg) (getz (get_k k pos) (rc_index cfg) + dl)) pos) /\
    (forall u, u <> from -> get_pos (as_p s') u = get_pos (as_p s) u) /\ ps_auct (as_p s') = ps_auct (as_p s) /\ as_x s' = as_x s /\
    acted (ac_spender (as_ac s)) (ac_spender (as_ac s')) (rq_addr q) pin /\ acted (ac_pool (as_ac s)) (ac_pool (as_ac s')) (rq_addr q) pout.
Proof.
  intros Hq H. unfold plain in Hq. inversion H; subst; try lia; cbn [as_p as_x as_ac].
  match goal with M : pmove _ L (LAcc _) L1 |- _ => inversion M as [a1 cfg1 d1 d1' C1 D1 A1| | | | |]; subst end.
  simpl in *. assert (cfg1 = cfg) as -> by congruence. match goal with X : <[_ := _]> _ !! _ = Some d |- _ => rewrite lookup_insert in X; injection X as <- end.
  match goal with M : pmove _ _ (LPos _ _ _ _) L2 |- _ => inversion M as [|k u a' dl' cfg2 d3 n p1 C2 D2 L3 Hnz E2 Bp Bs| | | |]; subst end.
  simpl in *. assert (cfg2 = cfg) as -> by congruence. rewrite lookup_insert in D2. injection D2 as <-.
  assert (data_at (c_now c) L (rq_addr q) = d1') as Hda by (unfold data_at; by rewrite C1, D1, A1). pose proof (accrue_last _ _ _ _ _ A1) as Hl.
  apply p_emissions_emis in E2. pose proof (emis_auct _ _ E2) as Eau. simpl in Eau.
  exists cfg, dl, pin, pout. split; [done|]. split; [rewrite Hda; done|]. split; [|split; [unfold get_pos at 1; simpl; rewrite lookup_insert; done|split; [|done]]].
  - intros r. simpl. destruct (Z.eqb_spec r (rq_addr q)) as [->|Hne].
    + split; [intros _; rewrite C1, D1, Hda; eauto|]. rewrite lookup_insert, Hda. f_equal. unfold plus, set. destruct (req_kind (rq_type q)); simpl; destruct d1'; simpl; unfold set; simpl; f_equal; lia.
    + split; [done|]. by rewrite !lookup_insert_ne by congruence.
  - intros u Hu. unfold get_pos. simpl. by rewrite lookup_insert_ne by congruence.
Qed.
Lemma flow_rates t d1 d2 cur n : rd_b_rate d1 = rd_b_rate d2 -> rd_d_rate d1 = rd_d_rate d2 -> flow t d1 cur n = flow t d2 cur n.
Proof. intros H1 H2. unfold flow. by rewrite H1, H2. Qed.

Lemma areqs_view c self from qs : forall s1 s2 l1 l2 s1' s2',
  Forall plain qs -> view (c_now c) from (as_p s1) (as_p s2) ->
  areqs c self from s1 qs l1 s1' -> areqs c self from s2 qs l2 s2' ->
  exists e, has_effect (c_now c) (as_p s1) (as_p s1') e /\ has_effect (c_now c) (as_p s2) (as_p s2') e /\
    get_pos (as_p s1') from = get_pos (as_p s2') from /\ aeq (as_ac s1) (as_ac s1') (as_ac s2) (as_ac s2') /\
    (forall u, u <> from -> get_pos (as_p s1') u = get_pos (as_p s1) u) /\ ps_auct (as_p s1') = ps_auct (as_p s1) /\ as_x s1' = as_x s1.
Proof.
  induction qs as [|q qs IH]; intros s1 s2 l1 l2 s1' s2' Hq V H1 H2; inversion H1; subst; inversion H2; subst.
  - exists (mkEffect (fun _ => false) (fun _ => 0) (fun _ => 0)). repeat split; try done; try lia. apply V.
  - apply Forall_cons in Hq as [Hq Hqs].
    match goal with A : areq _ _ _ _ s1 ?l ?m, B : areq _ _ _ _ s2 ?l' ?m' |- _ => rename A into A1; rename B into A2; rename m into m1; rename m' into m2 end.
    pose proof (ptrace_cfg _ _ _ _ (areq_trace _ _ _ _ _ _ _ A1)) as (_ & _ & _ & _ & Hf1 & _ & Hc1 & _).
    pose proof (ptrace_cfg _ _ _ _ (areq_trace _ _ _ _ _ _ _ A2)) as (_ & _ & _ & _ & Hf2 & _ & Hc2 & _).
    pose proof (fun r => trace_data _ _ _ _ r (areq_trace _ _ _ _ _ _ _ A1)) as Hd1. pose proof (fun r => trace_data _ _ _ _ r (areq_trace _ _ _ _ _ _ _ A2)) as Hd2.
    destruct (areq_plain_effect _ _ _ _ _ _ _ Hq A1) as (cfg & dl & pin & pout & C1 & F1 & E1 & P1 & O1 & U1 & X1 & S1 & T1).
    destruct (areq_plain_effect _ _ _ _ _ _ _ Hq A2) as (cfg' & dl' & pin' & pout' & C2 & F2 & E2 & P2 & O2 & U2 & X2 & S2 & T2).
    destruct V as (V1 & V2 & V3 & V4). assert (cfg' = cfg) as -> by congruence.
    rewrite <- V3 in F2. rewrite (flow_rates _ _ (data_at (c_now c) (as_p s2) (rq_addr q)) _ _ (proj1 (V4 _)) (proj2 (V4 _))) in F1. rewrite F1 in F2. injection F2 as <- <- <-.
    assert (view (c_now c) from (as_p m1) (as_p m2)) as V'.
    { split; [congruence|]. split; [congruence|]. split; [by rewrite P1, P2, V3|]. intros r. destruct (Hd1 r), (Hd2 r), (V4 r). split; congruence. }
    match goal with A : areqs _ _ _ m1 _ _ _, B : areqs _ _ _ m2 _ _ _ |- _ => destruct (IH _ _ _ _ _ _ Hqs V' A B) as (e & G1 & G2 & G3 & G4 & G5 & G6 & G7) end.
    exists (both (one_effect q dl) e). split; [by eapply effect_both|]. split; [by eapply effect_both|]. split; [done|]. split.
    + intros r. specialize (S1 r). specialize (S2 r). specialize (T1 r). specialize (T2 r). destruct (G4 r). lia.
    + split; [intros u Hu; by rewrite G5, O1|]. split; congruence.
Qed.

Lemma areqs_view' c self from qs s1 s2 l1 l2 s1' s2' :
  areqs c self from s1 qs l1 s1' -> areqs c self from s2 qs l2 s2' ->
  Forall plain qs -> view (c_now c) from (as_p s1) (as_p s2) ->
  exists e, has_effect (c_now c) (as_p s1) (as_p s1') e /\ has_effect (c_now c) (as_p s2) (as_p s2') e /\
    get_pos (as_p s1') from = get_pos (as_p s2') from /\ aeq (as_ac s1) (as_ac s1') (as_ac s2) (as_ac s2') /\
    (forall u, u <> from -> get_pos (as_p s1') u = get_pos (as_p s1) u) /\ ps_auct (as_p s1') = ps_auct (as_p s1) /\ as_x s1' = as_x s1.
Proof. intros. by eapply areqs_view. Qed.
Lemma touch_effect now p u q e : has_effect now (touch p u) q e -> has_effect now p q e.
Proof. done. Qed.
Lemma touch_pos p u x : get_pos (touch p u) x = get_pos p x.
Proof. unfold touch, get_pos. simpl. destruct (decide (x = u)) as [->|]; [by rewrite lookup_insert|by rewrite lookup_insert_ne]. Qed.
Lemma getz0 r : getz (∅ : gmap Addr Z) r = 0. Proof. unfold getz. by rewrite lookup_empty. Qed.

(** the worlds agree on everything except on what users have accrued from emissions in the pool at [a] *)
Definition same_up_to_emissions (a : Addr) (w w' : World) : Prop :=
  w_now w = w_now w' /\ w_seq w = w_seq w' /\
  (forall u, positions w a u = positions w' a u) /\ (forall r, reserve w a r = reserve w' a r) /\
  (forall t u, auction w a t u = auction w' a t u) /\ same_cfg (pool w a) (pool w' a) /\ (forall b, b <> a -> pool w b = pool w' b) /\
  (forall tok u, held w tok u = held w' tok u) /\
  x_em (w_ext w) = x_em (w_ext w') /\ x_bs (w_ext w) = x_bs (w_ext w') /\ x_fac (w_ext w) = x_fac (w_ext w') /\
  x_orc (w_ext w) = x_orc (w_ext w') /\ x_lp_supply (w_ext w) = x_lp_supply (w_ext w') /\ x_log (w_ext w) = x_log (w_ext w') /\
  tk_allow (x_tok (w_ext w)) = tk_allow (x_tok (w_ext w')).

Lemma pool_other w sg a po out w' b : exec w (OPool sg a po) = Ok (out, w') -> b <> a -> pool w' b = pool w b.
Proof. intros H Hb. apply exec_pools in H. unfold pool at 1. rewrite H, lookup_insert_ne by done. done. Qed.

(** ** C72: the order of two accounts' submissions in a ledger does not matter *)
(** Two accounts each send a submission (supplying, withdrawing, borrowing, repaying) to a pool in the same ledger. If they are accepted in
    either order, then both get the same answer in either order, and everything ends up the same. *)
Theorem C72_order_does_not_matter : forall w a sgu u spu tou qsu sgv v spv tov qsv outu w1 outv w12 outv' w2 outu' w21,
  reachable w -> u <> v -> Forall plain qsu -> Forall plain qsv ->
  exec w (OPool sgu a (PSubmit u spu tou qsu)) = Ok (outu, w1) -> exec w1 (OPool sgv a (PSubmit v spv tov qsv)) = Ok (outv, w12) ->
  exec w (OPool sgv a (PSubmit v spv tov qsv)) = Ok (outv', w2) -> exec w2 (OPool sgu a (PSubmit u spu tou qsu)) = Ok (outu', w21) ->
  outu = outu' /\ outv = outv' /\ same_up_to_emissions a w12 w21.
Proof.
  intros w a sgu u spu tou qsu sgv v spv tov qsv outu w1 outv w12 outv' w2 outu' w21 Hr Hne Hpu Hpv H1 H12 H2 H21.
  pose proof (reachable_step _ _ _ _ Hr H1) as Hr1. pose proof (reachable_step _ _ _ _ Hr H2) as Hr2.
  pose proof (exec_opool _ _ _ _ _ _ H1) as (_ & N1 & S1 & _). pose proof (exec_opool _ _ _ _ _ _ H12) as (_ & N12 & S12 & _).
  pose proof (exec_opool _ _ _ _ _ _ H2) as (_ & N2 & S2 & _). pose proof (exec_opool _ _ _ _ _ _ H21) as (_ & N21 & S21 & _).
  pose proof (fun b => pool_other _ _ _ _ _ _ b H1) as B1. pose proof (fun b => pool_other _ _ _ _ _ _ b H12) as B12.
  pose proof (fun b => pool_other _ _ _ _ _ _ b H2) as B2. pose proof (fun b => pool_other _ _ _ _ _ _ b H21) as B21.
  apply submit_tx in H1 as (_ & _ & C1 & _ & _ & _ & _ & _ & _ & l1 & x1 & ac1 & k1 & ta1 & tb1 & pos1 & -> & P1 & Q1 & Ta1 & Tb1 & X1 & _); [|done].
  apply submit_tx in H12 as (_ & _ & C12 & _ & _ & _ & _ & _ & _ & l12 & x12 & ac12 & k12 & ta12 & tb12 & pos12 & -> & P12 & Q12 & Ta12 & Tb12 & X12 & _); [|done].
  apply submit_tx in H2 as (_ & _ & C2 & _ & _ & _ & _ & _ & _ & l2 & x2 & ac2 & k2 & ta2 & tb2 & pos2 & -> & P2 & Q2 & Ta2 & Tb2 & X2 & _); [|done].
  apply submit_tx in H21 as (_ & _ & C21 & _ & _ & _ & _ & _ & _ & l21 & x21 & ac21 & k21 & ta21 & tb21 & pos21 & -> & P21 & Q21 & Ta21 & Tb21 & X21 & _); [|done].
  assert (ctx w1 sgv = ctx w sgv) as Ev by (unfold ctx; by rewrite N1, S1). assert (ctx w2 sgu = ctx w sgu) as Eu by (unfold ctx; by rewrite N2, S2).
  rewrite Ev in *. rewrite Eu in *. clear Ev Eu.
  pose proof (fun r => trace_data _ _ _ _ r (areqs_trace _ _ _ _ _ _ _ Q1)) as D1. pose proof (fun r => trace_data _ _ _ _ r (areqs_trace _ _ _ _ _ _ _ Q2)) as D2. cbn [as_p] in D1, D2.
  change (c_now (ctx w sgu)) with (w_now w) in *. change (c_now (ctx w sgv)) with (w_now w) in *.
  pose proof C1 as C1'. pose proof C2 as C2'. destruct C1' as (_ & _ & _ & _ & Cf1 & _ & Cr1 & _). destruct C2' as (_ & _ & _ & _ & Cf2 & _ & Cr2 & _).
  assert (forall p r s, data_at (w_now w) (touch p s) r = data_at (w_now w) p r) as Dt by done.
  assert (exists eu, has_effect (w_now w) (pool w a) (pool w1 a) eu /\ has_effect (w_now w) (pool w2 a) (pool w21 a) eu /\
    get_pos (pool w1 a) u = get_pos (pool w21 a) u /\ aeq no_actions ac1 no_actions ac21 /\
    (forall x, x <> u -> get_pos (pool w1 a) x = get_pos (pool w a) x) /\ ps_auct (pool w1 a) = ps_auct (pool w a) /\ x1 = w_ext w /\
    (forall x, x <> v -> get_pos (pool w2 a) x = get_pos (pool w a) x)) as (eu & Eu1 & Eu2 & Pu & Au & Ou & Uu & Xu & Ov0).
  { destruct (areqs_view' _ _ _ _ _ _ _ _ _ _ Q2 Q2 Hpv ltac:(repeat split)) as (_ & _ & _ & _ & _ & O2 & _). cbn [as_p] in O2.
    assert (view (w_now w) u (touch (pool w a) u) (touch (pool w2 a) u)) as V.
    { split; [simpl; congruence|]. split; [simpl; congruence|]. split; [rewrite !touch_pos, O2, touch_pos by done; done|]. intros r. destruct (D2 r). cbn. rewrite !Dt in *. done. }
    destruct (areqs_view' _ _ _ _ _ _ _ _ _ _ Q1 Q21 Hpu V) as (e & A1 & A2 & A3 & A4 & A5 & A6 & A7). cbn [as_p as_x as_ac] in *.
    exists e. split; [exact A1|]. split; [exact A2|]. split; [done|]. split; [done|]. split; [intros x Hx; by rewrite A5, touch_pos|]. split; [exact A6|]. split; [done|]. intros x Hx; by rewrite O2, touch_pos. }
  assert (exists ev, has_effect (w_now w) (pool w a) (pool w2 a) ev /\ has_effect (w_now w) (pool w1 a) (pool w12 a) ev /\
    get_pos (pool w2 a) v = get_pos (pool w12 a) v /\ aeq no_actions ac2 no_actions ac12 /\
    (forall x, x <> v -> get_pos (pool w12 a) x = get_pos (pool w1 a) x) /\ (forall x, x <> u -> get_pos (pool w21 a) x = get_pos (pool w2 a) x) /\
    ps_auct (pool w2 a) = ps_auct (pool w a) /\ x2 = w_ext w /\
    ps_auct (pool w12 a) = ps_auct (pool w1 a) /\ x12 = w_ext w1 /\ ps_auct (pool w21 a) = ps_auct (pool w2 a) /\ x21 = w_ext w2) as (ev & Ev1 & Ev2 & Pv & Av & Ov & Ou' & Uv & Xv & U12 & Xv12 & U21 & Xv21).
  { destruct (areqs_view' _ _ _ _ _ _ _ _ _ _ Q21 Q21 Hpu ltac:(repeat split)) as (_ & _ & _ & _ & _ & O2 & O3 & O4). cbn [as_p as_x] in O2, O3, O4.
    destruct (areqs_view' _ _ _ _ _ _ _ _ _ _ Q12 Q12 Hpv ltac:(repeat split)) as (_ & _ & _ & _ & _ & O5 & O6 & O7). cbn [as_p as_x] in O5, O6, O7.
    assert (view (w_now w) v (touch (pool w a) v) (touch (pool w1 a) v)) as V.
    { split; [simpl; congruence|]. split; [simpl; congruence|]. split; [rewrite !touch_pos, Ou by done; done|]. intros r. destruct (D1 r). cbn. rewrite !Dt in *. done. }
    destruct (areqs_view' _ _ _ _ _ _ _ _ _ _ Q2 Q12 Hpv V) as (e & A1 & A2 & A3 & A4 & A5 & A6 & A7). cbn [as_p as_x as_ac] in *.
    exists e. split; [exact A1|]. split; [exact A2|]. split; [done|]. split; [done|]. split; [intros x Hx; by rewrite O5, touch_pos|]. split; [intros x Hx; by rewrite O2, touch_pos|]. split; [exact A6|]. done. }
  split; [congruence|]. split; [congruence|].
  split; [congruence|]. split; [congruence|]. split.
  { intros x. unfold positions. destruct (decide (x = u)) as [->|Hxu]; [by rewrite Ov, Pu by done|]. rewrite (Ou' x Hxu).
    destruct (decide (x = v)) as [->|Hxv]; [done|]. by rewrite Ov, Ou, Ov0. }
  split.
  { intros r. unfold reserve. destruct (Eu1 r) as [_ R1], (Eu2 r) as [_ R21], (Ev1 r) as [_ R2], (Ev2 r) as [_ R12].
    rewrite R12, R21, (effect_data _ _ _ _ r Eu1 Cr1 Cf1), (effect_data _ _ _ _ r Ev1 Cr2 Cf2), R1, R2.
    destruct (ef_on eu r), (ef_on ev r); try done. rewrite !plus_plus. do 2 f_equal; lia. }
  split; [intros t x; unfold auction; congruence|]. split. { unfold same_cfg in *. intuition congruence. }
  split; [intros b Hb; rewrite B12, B21, B1, B2; done|].
  pose proof (transfer_all_allow _ _ _ _ _ _ Ta1) as L1. pose proof (transfer_all_allow _ _ _ _ _ _ Tb1) as L1'.
  pose proof (transfer_all_allow _ _ _ _ _ _ Ta2) as L2. pose proof (transfer_all_allow _ _ _ _ _ _ Tb2) as L2'.
  pose proof (transfer_all_allow _ _ _ _ _ _ Ta12) as L12. pose proof (transfer_all_allow _ _ _ _ _ _ Tb12) as L12'.
  pose proof (transfer_all_allow _ _ _ _ _ _ Ta21) as L21. pose proof (transfer_all_allow _ _ _ _ _ _ Tb21) as L21'.
  split.
  { intros tok x. unfold held. rewrite X12, X21. simpl.
    rewrite (transfer_all_spec _ _ _ _ _ _ Tb12), (transfer_all_spec _ _ _ _ _ _ Ta12), (transfer_all_spec _ _ _ _ _ _ Tb21), (transfer_all_spec _ _ _ _ _ _ Ta21).
    rewrite Xv12, Xv21, X1, X2. simpl.
    rewrite (transfer_all_spec _ _ _ _ _ _ Tb1), (transfer_all_spec _ _ _ _ _ _ Ta1), (transfer_all_spec _ _ _ _ _ _ Tb2), (transfer_all_spec _ _ _ _ _ _ Ta2).
    rewrite Xu, Xv. destruct (Au tok) as [Au1 Au2], (Av tok) as [Av1 Av2]. simpl in Au1, Au2, Av1, Av2. rewrite !getz0 in *.
    destruct (x =? tou), (x =? tov), (x =? spu), (x =? spv), (x =? a); lia. }
  rewrite X12, X21. simpl. subst x12 x21 x1 x2. rewrite X1, X2 in *. simpl in *. repeat split; congruence.
Qed.
