(** * Earned pool emissions can be claimed (C73): the claim succeeds *)
From Verif Require Import Base Types Token Emitter Factory Backstop PoolReserve PoolUser PoolHealth
  PoolAuction PoolSubmit PoolEmis PoolAdmin World Facts XMove Spec FrameFacts PoolFrame PoolCfg PoolAccrue PoolTrace PoolInv AuctionFacts
  PoolSim PoolReq PoolHF PoolOps PoolLiq PoolReach PoolTx PoolEmisInv PoolEmisTx BackMoves BackInv BackEmis PropsEmitter PropsAdmin PropsAdmin3 PropsBackstop
  PropsBackstop3 PropsBackstop4 PropsBackstop5 PropsPool1 PropsPool3 PropsPool9 PropsPool10 PoolLive PropsPool28 PropsToken PropsBackstop9 PropsPool31 PropsPool32.

(** ** One claim *)
Lemma claim_user_total q d id sc u bal :
  0 < sc -> 0 <= bal -> 0 <= puidx q u id <= ed_index d -> 0 <= puacc q u id -> ed_index d <= i128_max -> bal * ed_index d <= i128_max ->
  puacc q u id + bal * (ed_index d - puidx q u id) / sc <= i128_max ->
  exists n q', update_user_emis q d id sc u bal true = Ok (n, q').
Proof.
  intros Hsc Hb Hi Ha F1 F2 F3. unfold update_user_emis. unfold puidx, puacc in *.
  destruct (ps_uemis q !! (u, id)) as [ud|]; simpl in *.
  - destruct (negb _ || true); [|eauto]. destruct (bal =? 0); [unfold set_user_emis; eauto|].
    rewrite i128_ok_nonneg by lia. cbn [bind]. unfold p_nonneg. rewrite (proj2 (Z.ltb_ge _ 0)) by lia. cbn [bind].
    rewrite fmul_floor_fits by nia. cbn [bind]. pose proof (Z.div_pos (bal * (ed_index d - ue_index ud)) sc ltac:(nia) Hsc).
    rewrite i128_ok_nonneg by lia. cbn [bind]. unfold set_user_emis. eauto.
  - destruct (bal =? 0); [unfold set_user_emis; eauto|]. rewrite fmul_floor_fits by nia. cbn [bind]. unfold set_user_emis. eauto.
Qed.
Lemma claim_emissions_total now p u id : PoolInv.good p -> emis_ok now p -> emis_fits now p u id ->
  exists n p', p_emissions now p id (tok_supply p id) (tok_unit p id) u (tok_bal p u id) true = Ok (n, p').
Proof.
  intros G K F. unfold p_emissions. destruct (ps_ecfg p !! id) as [cfg|] eqn:Ec; [|by exists 0, p].
  destruct (eo_eps _ _ K _ _ Ec) as (Heps & Ha & [d Ed]). destruct (eo_idx _ _ K _ _ Ed) as [Hi Hl].
  destruct (F cfg d Ec Ed) as (F1 & F2 & F3 & F4 & F5). cbv zeta in *.
  pose proof (tok_unit_pos p id G) as Hu. pose proof (tok_list p id [] G Ha ltac:(constructor)) as Hs. rewrite sumz_nil in Hs.
  pose proof (tok_bal_nonneg p u id G) as Hb. pose proof (puidx_range now p u id K) as Hx. pose proof (puacc_nonneg now p u id K) as Hacc.
  pose proof (pidx_le_index_at now now p id K G) as Hle.
  destruct (update_edata_total now p id (tok_supply p id) (tok_unit p id) cfg d) as [d' E]; try done.
  { intros Hn. unfold index_at in F3. rewrite Ec, Ed, (proj2 (Z.eqb_neq _ _) Hn) in F3. exact F3. }
  rewrite E. cbn [bind]. pose proof (update_edata_spec _ _ _ _ _ _ _ _ E Hs Heps) as (d0 & Ed0 & _ & Hor).
  rewrite Ed in Ed0. injection Ed0 as <-.
  assert (ed_index d' = index_at now p id) as Hia.
  { unfold index_at. rewrite Ec, Ed. destruct (tok_supply p id =? 0) eqn:Ez.
    - destruct Hor as [[-> _]|(_ & _ & _ & _ & ? & _)]; [done|lia].
    - destruct Hor as [[-> Hz]|(? & ? & ? & ? & ? & ->)].
      + assert (Z.max 0 (Z.min (ec_exp cfg) now - ed_last d) * ec_eps cfg = 0) as ->.
        { destruct Hz as [?|[?|[->|?]]]; [..|lia|lia]; [rewrite Z.max_l by lia; lia|rewrite Z.max_l by lia; lia]. }
        rewrite Z.mul_0_l, Zdiv_0_l. lia.
      + rewrite Z.max_r by lia. done. }
  apply (claim_user_total (set_edata p id d') d' id (tok_unit p id) u (tok_bal p u id));
    change (puidx (set_edata p id d') u id) with (puidx p u id); change (puacc (set_edata p id d') u id) with (puacc p u id); rewrite ?Hia; try done; lia.
Qed.
Lemma claim_one_total now p u id tot : PoolInv.good p -> emis_ok now p -> is_Some (asset_of p id) -> emis_fits now p u id -> tok_bal p u id <= i128_max ->
  0 <= tot -> tot + claimable now p u id <= i128_max ->
  exists p', p_claim_one now u (get_pos p u) (ps_list p) (tot, p) id = Ok (tot + claimable now p u id, p') /\ emis_upd now p u id true (claimable now p u id) p' /\
    PoolInv.good p' /\ emis_ok now p' /\ get_pos p' u = get_pos p u /\ ps_list p' = ps_list p.
Proof.
  intros G K [a Ha] F Hbal Ht Hfit. pose proof Ha as Ha0. unfold asset_of in Ha0. destruct (Z.leb_spec 0 id) as [Hid|]; [|done].
  destruct (cw_idx p (gd_cfg _ G) _ _ Ha0) as (rc & Hrc & Hri). rewrite Z2Nat.id in Hri by (apply Z.div_pos; lia).
  destruct (proj1 (gd_dom p G a) ltac:(eauto)) as [rd Hrd].
  assert (tok_supply p id = if id mod 2 =? 0 then rd_d_supply rd else rd_b_supply rd) as Hs by (unfold tok_supply; rewrite Ha; simpl; by rewrite Hrd).
  assert (tok_unit p id = 10 ^ rc_decimals rc) as Hun by (unfold tok_unit; rewrite Ha; simpl; by rewrite Hrc).
  destruct (claim_emissions_total now p u id G K F) as (n & p' & E).
  assert (exists k, id = tid k (rc_index rc)) as [k Hk].
  { rewrite Hri. pose proof (Z.div_mod id 2 ltac:(lia)). pose proof (Z.mod_pos_bound id 2 ltac:(lia)). destruct (Z.eqb_spec (id mod 2) 0); [exists KLiab|exists KColl]; simpl; lia. }
  destruct (tok_of_tid p k a rc rd u G Hrc Hrd) as (_ & _ & K1 & K2 & K3). rewrite <- Hk in K1, K2, K3.
  assert (pmove now p (LEmis u id true n) p') as M.
  { pose proof E as E'. rewrite K1, K2, K3 in E'. rewrite Hk in E'. rewrite Hk. exact (pm_emis now p k u a rc rd true n p' Hrc Hrd E'). }
  pose proof (pmove_good _ _ _ _ G M) as G'. pose proof (pmove_emis_ok _ _ _ _ G K M) as K'. apply pmove_emis_upd in M; [|done|done].
  destruct (emis_upd_claimable _ _ _ _ _ _ _ G K M) as (_ & _ & _ & _ & _ & U7 & _). specialize (U7 eq_refl). subst n.
  pose proof (p_emissions_emis _ _ _ _ _ _ _ _ _ _ E) as Hse. destruct (emis_ecfg _ _ Hse) as (_ & _ & Hps).
  exists p'. split; [|split; [done|]; split; [done|]; split; [done|]; split; [unfold get_pos; by rewrite Hps|by rewrite Hse]].
  unfold p_claim_one. rewrite Z.quot_div_nonneg by lia. rewrite Ha0. cbn [unwrap_or bind]. rewrite Hrc, Hrd. cbn [unwrap bind].
  pose proof (cw_valid _ (gd_cfg _ G) _ _ Hrc) as Hb.
  assert (pow10 (rc_decimals rc) = Ok (tok_unit p id)) as Hp10.
  { rewrite Hun. unfold pow10. rewrite i128_ok_nonneg; [done|]. pose proof (Z.pow_le_mono_r 10 (rc_decimals rc) 18 ltac:(lia) ltac:(apply Hb)).
    assert (0 <= 10 ^ rc_decimals rc) by (apply Z.pow_nonneg; lia). unfold i128_max. lia. }
  pose proof (tok_bal_nonneg p u id G) as Hb0. unfold tok_bal in Hbal, Hb0.
  assert (i128 (tot + claimable now p u id) = Ok (tot + claimable now p u id)) as Hi128.
  { apply i128_ok_nonneg. pose proof (PropsPool10.claimable_nonneg now p u id G K). lia. }
  unfold tok_bal in E. rewrite Hs in E. destruct (id mod 2 =? 0).
  - cbn [bind fst snd]. rewrite Hp10. cbn [bind]. rewrite E. cbn [bind]. rewrite Hi128. done.
  - unfold get_total. rewrite i128_ok_nonneg by lia. cbn [bind fst snd]. rewrite Hp10. cbn [bind]. rewrite E. cbn [bind]. rewrite Hi128. done.
Qed.

(** a claim leaves the arithmetic of every token within its bounds *)
Lemma fits_after now p u i n p' j : PoolInv.good p -> emis_ok now p -> emis_upd now p u i true n p' -> emis_fits now p u j -> emis_fits now p' u j.
Proof.
  intros G K M F. destruct (emis_upd_claimable _ _ _ _ _ _ _ G K M) as (_ & I & C & _). specialize (I j). specialize (C u j).
  destruct M as [(Ec & -> & ->)|(ec & e & e' & ue & Ec & Ee & -> & Hor & _)]; [done|].
  destruct (upd_obs p u i e' ue) as (_ & Ou & _ & Ob & _). intros cfg d Hc Hd. cbv zeta. rewrite I, C, Ou, Ob.
  simpl in Hc, Hd. apply lookup_insert_Some in Hd as [[-> ->]|[Hne Hd]].
  - rewrite Ec in Hc. injection Hc as <-. destruct (F ec e Ec Ee) as (F1 & F2 & F3 & F4 & F5). cbv zeta in *.
    pose proof (tok_unit_pos p j G) as Hu. destruct (eo_eps _ _ K _ _ Ec) as (Heps & _).
    split; [|split; [|split; [done|split; [done|]]]].
    + destruct Hor as [->|[Hl _]]; [done|]. unfold undistributed. rewrite Hl, Z.sub_diag. by vm_compute.
    + destruct Hor as [->|[Hl _]]; [done|]. unfold undistributed. rewrite Hl, Z.sub_diag. by vm_compute.
    + destruct (decide _); [by vm_compute|done].
  - destruct (F cfg d Hc Hd) as (F1 & F2 & F3 & F4 & F5). cbv zeta in *. split; [done|]. split; [done|]. split; [done|]. split; [done|].
    destruct (decide _); [by vm_compute|done].
Qed.

Lemma claim_fold_total now u pos l (js0 : list Z) : forall ids p tot, PoolInv.good p -> emis_ok now p -> pos = get_pos p u -> l = ps_list p ->
  (forall i, i ∈ ids -> is_Some (asset_of p i) /\ emis_fits now p u i /\ tok_bal p u i <= i128_max) ->
  (forall i, i ∈ ids -> i ∈ js0) -> 0 <= tot ->
  (forall js, NoDup js -> (forall j, j ∈ js -> j ∈ js0) -> tot + sumz (claimable now p u) js <= i128_max) ->
  exists r, foldM (p_claim_one now u pos l) (tot, p) ids = Ok r.
Proof.
  induction ids as [|i ids IH]; intros p tot G K Hpos Hl Hids Hin Ht Hb; [by eexists|].
  destruct (Hids i ltac:(by left)) as (Ha & F & Hbal).
  assert (tot + claimable now p u i <= i128_max) as Hi.
  { specialize (Hb [i] ltac:(by apply NoDup_singleton)). rewrite sumz_cons, sumz_nil in Hb. rewrite Z.add_0_r in Hb. apply Hb. intros j Hj. apply elem_of_list_singleton in Hj as ->. apply Hin. by left. }
  destruct (claim_one_total now p u i tot G K Ha F Hbal Ht Hi) as (p' & E & M & G' & K' & Hpos' & Hl').
  clear Hi.
  cbn [foldM]. rewrite <- Hpos, <- Hl in E. rewrite E. cbn [bind].
  destruct (emis_upd_claimable _ _ _ _ _ _ _ G K M) as (_ & I & C & _).
  assert ((forall j, asset_of p' j = asset_of p j) /\ forall j, tok_bal p' u j = tok_bal p u j) as [Ha' Hb'].
  { destruct M as [(_ & _ & ->)|(ec & e & e' & ue & _ & _ & -> & _)]; done. }
  pose proof (PropsPool10.claimable_nonneg now p u i G K) as Hc0.
  apply IH; try done; [by rewrite Hpos'|by rewrite Hl'|..].
  - intros j Hj. destruct (Hids j ltac:(by right)) as (A1 & A2 & A3). rewrite Ha', Hb'. split; [done|]. split; [|done]. exact (fits_after now p u i _ p' j G K M A2).
  - intros j Hj. apply Hin. by right.
  - lia.
  - intros js Hn Hjs. assert (sumz (claimable now p' u) js = sumz (fun j => if decide (u = u /\ j = i /\ true = true) then 0 else claimable now p u j) js) as -> by (apply sumz_ext; intros j _; apply C).
    destruct (decide (i ∈ js)) as [Hij|Hij].
    + specialize (Hb js Hn Hjs). rewrite (sumz_split _ js i Hn Hij) in Hb. rewrite (sumz_split _ js i Hn Hij). rewrite decide_True by done.
      match goal with |- context [sumz ?f (filter ?P js)] => assert (sumz f (filter P js) = sumz (claimable now p u) (filter P js)) as -> end.
      { apply sumz_ext. intros j Hj. apply elem_of_list_filter in Hj as [Hj _]. rewrite decide_False; [done|]. intros (_ & -> & _). done. }
      lia.
    + specialize (Hb (i :: js) ltac:(by constructor)). rewrite sumz_cons in Hb.
      assert (sumz (fun j => if decide (u = u /\ j = i /\ true = true) then 0 else claimable now p u j) js = sumz (claimable now p u) js) as ->.
      { apply sumz_ext. intros j Hj. rewrite decide_False; [done|]. intros (_ & -> & _). done. }
      rewrite <- Z.add_assoc. apply Hb. intros j Hj. apply elem_of_cons in Hj as [->|Hj]; [apply Hin; by left|by apply Hjs].
Qed.

(** ** The transfer *)
Lemma transfer_from_total c t k sp from to n : c_auth c sp = true -> 0 <= n <= allowance c t k from sp -> n <= balance t k from ->
  0 <= balance t k to -> balance t k to + n <= i128_max -> exists t', transfer_from c t k sp from to n = Ok t'.
Proof.
  intros Ha [Hn Hal] Hb H0 Hf. unfold transfer_from, need_auth. rewrite Ha. cbn [bind]. rewrite (proj2 (Z.leb_le _ _) Hn), (proj2 (Z.leb_le _ _) Hal).
  match goal with |- context [tok_move ?t1 _ _ _ _] => set (t1' := t1); assert (tk_bal t1' = tk_bal t) as Htb by (unfold t1'; repeat case_match; done) end.
  assert (forall v, balance t1' k v = balance t k v) as Hbal by (intros v; unfold balance; by rewrite Htb).
  unfold tok_move. rewrite (proj2 (Z.leb_le _ _) Hn), Hbal, (proj2 (Z.leb_le _ _) Hb). rewrite balance_set_balance.
  rewrite i128_ok_nonneg; [cbn [bind]; eauto|]. rewrite Hbal. case_bool_decide as Hx; [destruct Hx as [_ Hx]; rewrite Hx in *|]; lia.
Qed.

(** ** C73: a claim of earned emissions succeeds *)
(** In every history of consistently deployed contracts as in C73_backstop_holds_it: a user who claims on any of the pool's tokens gets what
    he has earned on them, provided the pool never lost an allowance and its allowance has not expired, the emission arithmetic of those
    tokens stays within the 128-bit integers, and so does the balance of the receiver. *)
Theorem C73_claim_possible : forall w0 l a sg u ids to,
  initial w0 -> never_back w0 l -> Forall (fun o => own_claim o = true) l ->
  let w := run w0 l in let blnd := bs_blnd (x_bs (w_ext w)) in
  bs_init (x_bs (w_ext w)) = true -> em_blnd (x_em (w_ext w)) = blnd -> bs_token (x_bs (w_ext w)) <> blnd ->
  ps_init (pool w a) = true -> ps_blnd (pool w a) = blnd -> ps_backstop (pool w a) = bs_addr ->
  sumh (pool_lost a) w0 l = 0 -> approved w blnd bs_addr a = granted w blnd bs_addr a ->
  u ∈ sg -> Forall (fun s => 3 < s) sg ->
  (forall i, i ∈ ids -> in_u32 i = true /\ is_Some (asset_of (pool w a) i) /\ emis_fits (w_now w) (pool w a) u i /\ tok_bal (pool w a) u i <= i128_max) ->
  let amt := sumz (claimable (w_now w) (pool w a) u) (remove_dups ids) in
  balance (x_tok (w_ext w)) blnd to + amt <= i128_max ->
  exists w', exec w (OPool sg a (PClaim u ids to)) = Ok (OutZ amt, w').
Proof.
  intros w0 l a sg u ids to Hi Hnb Hoc w blnd Hb Hem Hne Hp Hpb Hps Hlost Hexp Hu Hsg Hids amt Hfit.
  assert (reachable w) as Hr by (by exists w0, l). pose proof (reachable_good _ a Hr Hp) as G. pose proof (reachable_emis _ a Hr) as K.
  assert (forall js, NoDup js -> sumz (claimable (w_now w) (pool w a) u) js <= granted w blnd bs_addr a) as Hcov.
  { intros js Hn. pose proof (C73_allowance_covers w0 l a [u] js Hi ltac:(by apply NoDup_singleton) Hn Hp Hpb Hps Hne) as H. cbv zeta in H. fold w in H. fold blnd in H.
    rewrite Hlost, Z.add_0_r in H. etrans; [|exact H]. apply Z.eq_le_incl, sumz_ext. intros j _. rewrite sumz_cons, sumz_nil. lia. }
  destruct (C73_backstop_holds_it w0 l [a] [] Hi Hnb Hoc ltac:(by apply NoDup_singleton) ltac:(by constructor) Hb Hem Hne) as [Hpos Hhold].
  fold w in Hpos, Hhold. fold blnd in Hpos, Hhold. rewrite sumz_cons, !sumz_nil in Hhold. specialize (Hpos a) as (_ & Hrec & _).
  assert (0 <= balance (x_tok (w_ext w)) blnd to) as Hb0 by (by apply reachable_tok_nonneg).
  assert (forall js, NoDup js -> (forall j, j ∈ js -> j ∈ ids) -> 0 + sumz (claimable (w_now w) (pool w a) u) js <= i128_max) as Hsum.
  { intros js Hn Hjs. assert (sumz (claimable (w_now w) (pool w a) u) js <= amt); [|lia]. apply sumz_incl; [done|apply NoDup_remove_dups| |].
    - intros j Hj. apply elem_of_remove_dups. by apply Hjs.
    - intros j _. by apply PropsPool10.claimable_nonneg. }
  destruct (claim_fold_total (w_now w) u (get_pos (pool w a) u) (ps_list (pool w a)) ids ids (pool w a) 0) as [[tot p'] Ef]; try done.
  { intros i Hx. by destruct (Hids i Hx) as (_ & ? & ? & ?). }
  pose proof Ef as Ef'. eapply claim_fold_sim in Ef' as (es & He & Htot & T); [|done| |done|done].
  2:{ intros i Hx. destruct (Hids i Hx) as (Hx' & _). unfold in_u32 in Hx'. lia. }
  destruct (claim_lbls_exact _ _ _ _ _ G K T) as [Hes _]. rewrite He in Hes. rewrite Hes in Htot. simpl in Htot. fold amt in Htot. subst tot.
  assert (0 <= amt) as Ha0. { apply sumz_nonneg. intros j _. by apply PropsPool10.claimable_nonneg. }
  assert (exists px, p_claim (ctx w sg) a (mkPX (pool w a) (w_ext w)) u ids to = Ok (amt, px)) as [px Hc].
  { unfold p_claim. assert (need_auth (ctx w sg) u = Ok tt) as ->.
    { unfold need_auth. simpl. by rewrite (proj2 (mem_addr_elem _ _) Hu). }
    cbn [bind px_p px_x]. change (c_now (ctx w sg)) with (w_now w). rewrite Ef. cbn [bind]. rewrite !Z.add_0_l. destruct (0 <? amt) eqn:E0; [|eexists; done].
    rewrite Hpb, Hps. destruct (transfer_from_total (as_contract (ctx w sg) a) (x_tok (w_ext w)) blnd a bs_addr to amt) as [t ->]; [unfold as_contract; cbn [c_auth]; rewrite Z.eqb_refl; apply orb_true_r| | |done|done|cbn [bind]; by eexists].
    - split; [done|]. change (allowance (as_contract (ctx w sg) a) (x_tok (w_ext w)) blnd bs_addr a) with (approved w blnd bs_addr a). rewrite Hexp. apply Hcov, NoDup_remove_dups.
    - assert (amt <= granted w blnd bs_addr a) by (apply Hcov, NoDup_remove_dups). lia. }
  cbn [exec ty_pop].
  assert (forallb ok_signer sg && forallb in_u32 ids = true) as ->.
  { apply andb_true_iff. split; apply forallb_forall.
    - intros s Hs. apply elem_of_list_In in Hs. rewrite Forall_forall in Hsg. unfold ok_signer. apply Z.ltb_lt. by apply Hsg.
    - intros i Hx. apply elem_of_list_In in Hx. by apply Hids. }
  unfold pool in *. destruct (w_pools w !! a) as [q|] eqn:Eq; [|done]. cbn [unwrap bind]. simpl in Hc, Hp. cbn [p_exec px_p]. rewrite Hp. unfold ret_z. rewrite Hc. cbn [bind]. by eexists.
Qed.
