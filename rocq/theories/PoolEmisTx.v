(** * Pool emissions: gulping, and transactions *)
From Verif Require Import Base Types Token Emitter Factory Backstop PoolReserve PoolUser PoolHealth
  PoolAuction PoolSubmit PoolEmis PoolAdmin World Facts XMove Spec FrameFacts PoolFrame PoolCfg PoolAccrue PoolTrace PoolInv AuctionFacts
  PoolSim PoolReq PoolHF PoolOps PoolLiq PoolReach PoolEmisInv.

(** emissions of the running period not handed out at [now] *)
Definition unspent (now : Z) (p : PoolSt) (id : Z) : Z :=
  match ps_ecfg p !! id with Some c => ec_eps c * Z.max 0 (ec_exp c - now) | None => 0 end.

Lemma update_res_ecfg_spec now p a id n p' :
  good p -> emis_ok now p -> asset_of p id = Some a -> 0 <= n -> update_res_ecfg now p a id n = Ok p' ->
  exists e', p' = set_ecfg (set_edata p id e') id (mkEmisConfig (now + 604800) ((n + unspent now p id) / 604800)) /\
    ed_last e' = now /\ ed_index e' = index_at now p id.
Proof.
  intros G K Ha Hn H. unfold update_res_ecfg in H. apply bind_ok in H as ([lft p1] & E & H).
  apply bind_ok in H as (e1 & E1 & H). apply bind_ok in H as (ep & E2 & H). injection H as <-.
  apply u64_ok in E1 as [-> _]. apply u64_ok in E2 as [-> _].
  destruct (ps_ecfg p !! id) as [cfg|] eqn:Ec.
  - destruct (eo_eps _ _ K _ _ Ec) as (Heps & Hsa & _).
    pose proof (tok_list p id [] G Hsa ltac:(constructor)) as Hs0. simpl in Hs0. pose proof (tok_unit_pos p id G) as Hup.
    apply bind_ok in E as (rc & Erc & E). apply bind_ok in E as (rd & Erd & E). apply bind_ok in E as (sc & Esc & E).
    destruct (ps_rcfg p !! a) as [rc0|] eqn:Erc0; [|discriminate]. injection Erc as ->.
    destruct (ps_rdata p !! a) as [rd0|] eqn:Erd0; [|discriminate]. injection Erd as ->.
    unfold pow10 in Esc. apply i128_ok in Esc as [-> _].
    assert ((if id mod 2 =? 0 then rd_d_supply rd else rd_b_supply rd) = tok_supply p id) as Hsup.
    { unfold tok_supply. rewrite Ha. simpl. by rewrite Erd0. }
    assert (10 ^ rc_decimals rc = tok_unit p id) as Hun.
    { unfold tok_unit. rewrite Ha. simpl. by rewrite Erc0. }
    rewrite Hsup, Hun in E. apply bind_ok in E as ([e' p2] & Eu & E).
    apply update_edata_spec in Eu as (e & Ee & -> & Hor); [|done|done].
    destruct (eo_idx _ _ K _ _ Ee) as [Hei Hel].
    assert (ed_index e' = index_at now p id) as Hia.
    { unfold index_at. rewrite Ec, Ee. destruct (tok_supply p id =? 0) eqn:Ez.
      - destruct Hor as [[-> _]|(_ & _ & _ & _ & ? & _)]; [done|lia].
      - destruct Hor as [[-> Hz]|(? & ? & ? & ? & ? & ->)].
        + assert (Z.max 0 (Z.min (ec_exp cfg) now - ed_last e) * ec_eps cfg = 0) as ->.
          { destruct Hz as [?|[?|[->|?]]]; [..|lia|lia]; [rewrite Z.max_l by lia; lia|rewrite Z.max_l by lia; lia]. }
          rewrite Z.mul_0_l, Zdiv_0_l. lia.
        + rewrite Z.max_r by lia. done. }
    assert ((if negb (ed_last e' =? now) then set_edata (set_edata p id e') id (mkEmisData (ed_index e') now) else set_edata p id e') =
      set_edata p id (mkEmisData (ed_index e') now)) as Hs.
    { destruct (ed_last e' =? now) eqn:El; simpl.
      - f_equal. destruct e'; simpl in *. f_equal. lia.
      - unfold set_edata. destruct p. unfold set; simpl. by rewrite insert_insert. }
    rewrite Hs in E. clear Hs.
    exists (mkEmisData (ed_index e') now). split; [|done].
    assert (lft = n + unspent now p id /\ p1 = set_edata p id (mkEmisData (ed_index e') now)) as [-> ->].
    { unfold unspent. rewrite Ec. destruct (now <? ec_exp cfg) eqn:El; mon E.
      - repeat match goal with E : u64 _ = Ok _ |- _ => apply u64_ok in E as [-> _] | E : i128 _ = Ok _ |- _ => apply i128_ok in E as [-> _] end.
        split; [|done]. rewrite Z.max_r by lia. lia.
      - split; [|done]. rewrite Z.max_l by lia. lia. }
    rewrite Z.quot_div_nonneg; [done| |lia]. unfold unspent. rewrite Ec. nia.
  - injection E as <- <-. exists (mkEmisData 0 now). unfold unspent. rewrite Ec, Z.add_0_r. rewrite Z.quot_div_nonneg by lia.
    split; [done|]. split; [done|]. simpl. unfold index_at. rewrite Ec. unfold pidx. by rewrite (proj1 (eo_none _ _ K _ Ec)).
Qed.

(** the state after giving [n] new emissions to [id] *)
Definition refill (now : Z) (p : PoolSt) (id n : Z) : PoolSt :=
  set_ecfg (set_edata p id (mkEmisData (index_at now p id) now)) id (mkEmisConfig (now + 604800) ((n + unspent now p id) / 604800)).

Lemma refill_facts now p id n :
  good p -> emis_ok now p -> is_Some (asset_of p id) -> 0 <= n ->
  let p' := refill now p id n in
  good p' /\ emis_ok now p' /\ (forall D, ecovered D p -> ecovered (<[id := getz D id + n]> D) p') /\
  (forall j, pidx p j <= pidx p' j) /\ (forall v j, claimable now p' v j = claimable now p v j) /\
  (forall j, live now p j -> live now p' j).
Proof.
  intros G K Ha Hn. cbv zeta. set (p' := refill now p id n).
  assert (good p') as G' by (destruct G as [Gi [] ? ? ? ? ?]; constructor; [done|constructor; try done; intros Hf; exfalso; unfold p', refill in Hf; simpl in Hf; congruence|done..]).
  pose proof (pidx_le_index_at _ now _ id K G) as Hle.
  assert (0 <= pidx p id) as Hp0 by (pose proof (puidx_range _ _ 0 id K); lia).
  assert (0 <= unspent now p id) as Hus.
  { unfold unspent. destruct (ps_ecfg p !! id) as [c|] eqn:Ec; [|lia]. destruct (eo_eps _ _ K _ _ Ec). apply Z.mul_nonneg_nonneg; lia. }
  assert (forall j, pidx p' j = if decide (j = id) then index_at now p id else pidx p j) as Op.
  { intros j. unfold pidx, p'; simpl. destruct (decide (j = id)) as [->|]; [by rewrite lookup_insert|by rewrite lookup_insert_ne]. }
  assert (forall j, index_at now p' j = index_at now p j) as Oi.
  { intros j. destruct (decide (j = id)) as [->|].
    - rewrite settled_index; [by rewrite Op, decide_True|]. unfold settled, p'; simpl. rewrite !lookup_insert. simpl. lia.
    - unfold index_at. rewrite Op, decide_False by done. unfold p'; simpl. by rewrite !lookup_insert_ne. }
  assert (emis_ok now p') as K'.
  { constructor; unfold p'; simpl.
    - intros j d. rewrite lookup_insert_Some. intros [[<- <-]|[_ Hj]]; [simpl; lia|by eapply K].
    - intros j c. rewrite lookup_insert_Some. intros [[<- <-]|[Hne Hj]].
      + split; [simpl; apply Z.div_pos; lia|]. split; [done|]. rewrite lookup_insert. eauto.
      + destruct (eo_eps _ _ K _ _ Hj) as (? & ? & ?). rewrite lookup_insert_ne by done. done.
    - intros j. rewrite lookup_insert_None. intros [Hj Hne]. rewrite lookup_insert_ne by done. by apply (eo_none _ _ K).
    - intros v j x Hx. fold p'. rewrite Op. apply (eo_user _ _ K) in Hx as [H1 H2]. split; [|done].
      destruct (decide (j = id)) as [->|]; [lia|done]. }
  split; [done|]. split; [done|]. split; [|split; [|split]].
  - intros D V j l Hl. rewrite getz_insert. change (tok_unit p' j) with (tok_unit p j). destruct (decide (j = id)) as [->|Hne].
    2:{ specialize (V j l Hl). assert (eremain p' j = eremain p j) as -> by (unfold eremain, p'; simpl; by rewrite !lookup_insert_ne).
        assert (eowed p' j l = eowed p j l) as ->; [|done]. apply sumz_ext. intros v _.
        rewrite Op, decide_False by done. done. }
    pose proof (tok_unit_pos p id G) as Hup.
    assert (eremain p' id <= n + unspent now p id) as Hr.
    { unfold eremain, p'; simpl. rewrite !lookup_insert. simpl. rewrite Z.max_r by lia.
      pose proof (fdiv_spec (n + unspent now p id) 604800 ltac:(lia)). lia. }
    assert (eowed p' id l + tok_unit p id * unspent now p id <= eowed p id l + tok_unit p id * eremain p id) as Ho.
    2:{ specialize (V id l Hl). assert (tok_unit p id * eremain p' id <= tok_unit p id * (n + unspent now p id)) by (apply Z.mul_le_mono_nonneg_l; lia). lia. }
    destruct (ps_ecfg p !! id) as [ec|] eqn:Ec.
    + destruct (eo_eps _ _ K _ _ Ec) as (Heps & _ & [e Ee]). destruct (eo_idx _ _ K _ _ Ee) as [Hei Hel].
      assert (pidx p id = ed_index e) as Hpi by (unfold pidx; by rewrite Ee).
      destruct (decide (ed_last e < Z.min (ec_exp ec) now)) as [Hlt|Hge].
      * pose proof (index_covered now p id ec e (mkEmisData (index_at now p id) (Z.min (ec_exp ec) now)) l G K Ec Ee ltac:(right; simpl; split; [done|lia]) eq_refl Hl) as Hx.
        set (p1 := set_edata p id _) in Hx.
        assert (eowed p1 id l = eowed p' id l) as Heq.
        { apply sumz_ext. intros v _. assert (pidx p1 id = pidx p' id) as ->; [|done]. rewrite Op, decide_True by done. unfold pidx, p1; simpl. by rewrite lookup_insert. }
        assert (eremain p1 id = unspent now p id) as Hrr.
        { unfold eremain, p1, unspent; simpl. rewrite Ec, lookup_insert. simpl. f_equal. lia. }
        rewrite Heq, Hrr in Hx. exact Hx.
      * assert (settled now p id) as Hs by (unfold settled; rewrite Ec, Ee; lia).
        assert (eowed p' id l = eowed p id l) as ->.
        { apply sumz_ext. intros v _. rewrite Op, decide_True, settled_index by done. done. }
        assert (unspent now p id <= eremain p id); [|nia]. unfold unspent, eremain. rewrite Ec, Ee. apply Z.mul_le_mono_nonneg_l; lia.
    + assert (eowed p' id l = eowed p id l) as ->.
      { apply sumz_ext. intros v _. rewrite Op, decide_True, settled_index; [done| |done]. unfold settled. by rewrite Ec. }
      unfold unspent, eremain. rewrite Ec. lia.
  - intros j. rewrite Op. destruct (decide (j = id)) as [->|]; lia.
  - intros v j. unfold claimable. by rewrite Oi.
  - intros j Hj. destruct (decide (j = id)) as [->|Hne].
    + right. unfold settled, p'; simpl. rewrite !lookup_insert. simpl. lia.
    + destruct Hj as [?|Hj]; [by left|right]. unfold settled, p' in *; simpl. by rewrite !lookup_insert_ne.
Qed.

(** ** [gulp_emissions] *)
Lemma gulp_facts now new : forall es p p',
  good p -> emis_ok now p -> 0 <= new ->
  (forall id v, (id, v) ∈ es -> 0 <= v /\ 0 <= id) ->
  foldM (gulp_res now new) p es = Ok p' ->
  good p' /\ emis_ok now p' /\
  (forall D, ecovered D p -> exists D', ecovered D' p' /\ msum D' = msum D + sumz (fun e => snd e * new / 10000000) es) /\
  (forall j, pidx p j <= pidx p' j) /\ (forall v j, claimable now p' v j = claimable now p v j) /\
  (forall j, live now p j -> live now p' j).
Proof.
  induction es as [|[id sh] es IH]; simpl; intros p p' G K Hnew Hes H.
  - injection H as <-. split; [done|]. split; [done|]. split; [intros D V; exists D; split; [done|lia]|]. split; [intros; lia|]. done.
  - apply bind_ok in H as (p1 & E & H). unfold gulp_res in E. apply bind_ok in E as (a & Ea & E). apply bind_ok in E as (n & En & E).
    simpl in *. destruct (Hes id sh ltac:(left)) as [Hsh Hid].
    apply fmul_floor_ok in En as [-> _]; [|by vals]. change SCALAR_7 with 10000000 in E.
    assert (asset_of p id = Some a) as Ha.
    { unfold list_get in Ea. rewrite Z.quot_div_nonneg in Ea by lia. unfold asset_of. rewrite (proj2 (Z.leb_le _ _) Hid).
      destruct (_ <? 0) in Ea; [discriminate|]. destruct (ps_list p !! _) in Ea |- *; [|discriminate]. by injection Ea as ->. }
    assert (0 <= sh * new / 10000000) as Hn by (apply Z.div_pos; [apply Z.mul_nonneg_nonneg; lia|lia]).
    apply update_res_ecfg_spec in E as (e' & -> & Hl & Hi); [|done|done|done|done].
    assert (e' = mkEmisData (index_at now p id) now) as -> by (destruct e'; simpl in *; congruence).
    destruct (refill_facts now p id (sh * new / 10000000) G K ltac:(eauto) Hn) as (G1 & K1 & V1 & P1 & C1 & L1).
    unfold refill in *.
    eapply IH in H as (G2 & K2 & V2 & P2 & C2 & L2); [|exact G1|exact K1|done|intros; apply Hes; by right].
    split; [done|]. split; [done|]. split.
    + intros D V. destruct (V2 _ (V1 D V)) as (D2 & V2' & M2). exists D2. split; [done|]. rewrite M2, msum_insert. lia.
    + split; [intros j; etransitivity; [apply P1|apply P2]|]. split; [intros v j; by rewrite C2, C1|]. auto.
Qed.

(** ** Which calls claim *)
Definition quiet (l : label) : bool := match l with LEmis _ _ true _ => false | _ => true end.
Lemma quiet_lbls k u s l : forallb quiet (lbls k u s l) = true.
Proof. induction l as [|e l IH]; [done|]. exact IH. Qed.
Lemma quiet_cred l : forallb quiet (cred_lbls l) = true.
Proof. induction l as [|e l IH]; [done|]. exact IH. Qed.
Lemma quiet_bd u bs l es : forallb quiet (bd_lbls u bs l es) = true.
Proof. induction es as [|e es IH]; [done|]. simpl. rewrite forallb_app. apply andb_true_iff. split; [by destruct (l !! _)|exact IH]. Qed.
Lemma quiet_areq c self from q s ls s' : areq c self from q s ls s' -> forallb quiet ls = true.
Proof.
  intros H. destruct H; unfold rm_lbls, add_lbls; rewrite ?forallb_app; cbn [forallb quiet];
    rewrite ?forallb_app, ?quiet_lbls, ?quiet_cred; done.
Qed.
Lemma quiet_areqs c self from s qs ls s' : areqs c self from s qs ls s' -> forallb quiet ls = true.
Proof. induction 1; [done|]. rewrite forallb_app. apply andb_true_iff. split; [by eapply quiet_areq|done]. Qed.
Lemma quiet_claims v j ls : forallb quiet ls = true -> forallb (fun l => negb (claims v j l)) ls = true.
Proof.
  rewrite !forallb_forall. intros H l Hl. specialize (H l Hl). destruct l as [| | |? ? [] ?| |]; simpl in *; done.
Qed.

(** the token ids a call claims for [v] *)
Definition claims_of (v : Addr) (po : POp) (j : Z) : bool :=
  match po with PClaim from ids _ => (from =? v) && existsb (Z.eqb j) ids | _ => false end.

Lemma p_exec_labels c self px po out px' :
  good (px_p px) -> ty_pop po = true -> moves_of po = true -> p_exec c self px po = Ok (out, px') ->
  exists ls, ptrace (c_now c) (px_p px) ls (px_p px') /\
    (forall v j, claims_of v po j = false -> forallb (fun l => negb (claims v j l)) ls = true) /\
    match po with
    | PClaim from ids _ => exists es, es.*1 = ids /\ ls = claim_lbls from es /\ out = OutZ (sumz snd es)
    | _ => True
    end.
Proof.
  intros G Hty Hm H. destruct po; simpl in Hm; try discriminate; simpl in H; rewrite (gd_init _ G) in H; simpl in H.
  - apply bind_ok in H as ([pos px1] & E & H). injection H as <- <-.
    apply submit_sim in E; [|done]. cbv zeta in E. destruct E as (_ & _ & _ & _ & _ & ls & x1 & ac & chk & t1 & t2 & Hq & _).
    pose proof (quiet_areqs _ _ _ _ _ _ _ Hq) as Q.
    apply areqs_trace in Hq. simpl in Hq. exists (LTouch from :: ls). split; [eapply pt_cons; [apply pm_touch|exact Hq]|].
    split; [|done]. intros v j _. by apply quiet_claims.
  - unfold on_pool in H. apply bind_ok in H as (p1 & E & H). injection H as <- <-.
    apply bad_debt_sim in E as (_ & _ & _ & T); [|done]. eexists. split; [exact T|]. split; [|done].
    intros v j _. apply quiet_claims. simpl. apply quiet_bd.
  - unfold ret_z in H. apply bind_ok in H as ([z px1] & E & H). injection H as <- <-.
    apply claim_sim in E as (_ & es & He & Hz & T & _); [|done|by apply forallb_nonneg].
    exists (claim_lbls from es). split; [done|]. split; [|exists es; split; [done|]; split; [done|by f_equal]].
    intros v j Hf. simpl in Hf. apply forallb_forall. intros l Hl. unfold claim_lbls in Hl. apply in_map_iff in Hl as (e & <- & Hin).
    simpl. apply negb_true_iff, bool_decide_eq_false. intros [-> He1].
    rewrite Z.eqb_refl in Hf. simpl in Hf.
    assert (existsb (Z.eqb j) ids = true) as Hx; [|congruence]. apply existsb_exists. exists j. split; [|apply Z.eqb_refl].
    rewrite <- He, <- He1. apply elem_of_list_In, elem_of_list_fmap. exists e. split; [done|by apply elem_of_list_In].
  - apply bind_ok in H as ([a p1] & E & H). injection H as <- <-. simpl in Hty. apply in_u64_iff in Hty.
    apply create_liq_sim in E; [|done|lia]. cbv zeta in E. destruct E as (_ & _ & _ & _ & _ & _ & _ & _ & _ & ls & p2 & Ho & T & ->).
    exists (ls ++ [LAuct]). split; [eapply ptrace_app; [exact T|]; apply ptrace_one, pm_auct|]. split; [|done].
    intros v j _. apply quiet_claims. rewrite forallb_app. apply andb_true_iff. split; [|done]. apply forallb_forall. intros l Hl.
    apply elem_of_list_In, Ho in Hl as (id & n & ->). done.
  - apply bind_ok in H as ([a p1] & E & H). injection H as <- <-. apply create_bad_debt_auct in E as ->.
    exists [LAuct]. split; [apply ptrace_one, pm_auct|done].
  - apply bind_ok in H as ([a p1] & E & H). injection H as <- <-. apply create_interest_auct in E as ->.
    exists [LAuct]. split; [apply ptrace_one, pm_auct|done].
Qed.

(** ** Calls of a pool *)
Definition claim_out (po : POp) (out : Out) : Z := match po, out with PClaim _ _ _, OutZ z => z | _, _ => 0 end.
Definition gulp_out (po : POp) (out : Out) : Z := match po, out with PGulp, OutZ z => z | _, _ => 0 end.

Lemma sum_shares (m : gmap Z Z) new : 0 <= new -> sumz snd (map_to_list m) <= 10000000 ->
  sumz (fun e => snd e * new / 10000000) (entries m) <= new.
Proof.
  intros Hn Hs. rewrite (sumz_perm _ _ _ (entries_perm m)).
  assert (forall l : list (Z * Z), 10000000 * sumz (fun e => snd e * new / 10000000) l <= sumz snd l * new) as Hl.
  { induction l as [|e l IH]; [simpl; lia|]. cbn [sumz foldr]. pose proof (fdiv_spec (snd e * new) 10000000 ltac:(lia)). unfold sumz in IH. lia. }
  specialize (Hl (map_to_list m)). nia.
Qed.

(** what every call of an initialized pool does to the emissions *)
Definition emis_effect (now : Z) (p : PoolSt) (po : POp) (out : Out) (p' : PoolSt) : Prop :=
  emis_ok now p' /\
  (forall D, ecovered D p -> exists D', ecovered D' p' /\ msum D' + claim_out po out <= msum D + gulp_out po out) /\
  (forall j, pidx p j <= pidx p' j) /\
  (forall v j, claims_of v po j = false ->
     claimable now p v j <= claimable now p' v j /\ (live now p j -> claimable now p' v j = claimable now p v j)).

Lemma same_view_effect now p po out p' : emis_ok now p -> same_view p p' -> claim_out po out = 0 -> gulp_out po out = 0 -> emis_effect now p po out p'.
Proof.
  intros K S H1 H2. destruct (same_view_claimable now _ _ S) as (A1 & A2 & A3). split; [by eapply same_view_ok|]. split.
  - intros D V. exists D. split; [by eapply same_view_covered|]. lia.
  - split; [intros; rewrite A1; lia|]. intros v j _. rewrite A2. split; [lia|done].
Qed.

Lemma ecovered_nonneg now D p id : good p -> emis_ok now p -> ecovered D p -> 0 <= getz D id.
Proof.
  intros G K V. specialize (V id [] ltac:(constructor)). unfold eowed in V. simpl in V. pose proof (tok_unit_pos p id G).
  assert (0 <= eremain p id).
  { unfold eremain. destruct (ps_ecfg p !! id) as [c|] eqn:Ec; [|lia]. destruct (ps_edata p !! id); [|lia].
    apply (eo_eps _ _ K) in Ec as [? _]. apply Z.mul_nonneg_nonneg; lia. }
  nia.
Qed.

Lemma res_set_effect now a p p' out : good p -> good p' -> emis_ok now p -> res_set now a p p' -> emis_effect now p (PSetRes a) out p'.
Proof.
  intros G G' K (cfg' & Hrc & Hpos & _ & Hue & Hed & Hec & Hin & _ & _ & _ & Hcase).
  assert (forall u, get_pos p' u = get_pos p u) as Hg by (intros; unfold get_pos; by rewrite Hpos).
  destruct Hcase as [(Hn & Hi & Hl & Hrd)|(cfg & d & d' & Hc & Hd & Hi & Hdec & Hl & Hac & m & Hm & Hrd)].
  - (* a new reserve: its ids are unused *)
    assert (forall j b, asset_of p j = Some b -> asset_of p' j = Some b) as Has.
    { intros j b. unfold asset_of. destruct (0 <=? j); [|done]. rewrite Hl. intros Hb. by apply lookup_app_l_Some. }
    assert (forall j, is_Some (asset_of p j) -> tok_unit p' j = tok_unit p j /\ tok_supply p' j = tok_supply p j) as Hold.
    { intros j [b Hb]. unfold tok_unit, tok_supply. rewrite (Has _ _ Hb), Hb. simpl. rewrite Hrc, Hrd.
      assert (b <> a) as Hne.
      { intros ->. unfold asset_of in Hb. destruct (0 <=? j); [|discriminate]. destruct (cw_idx p (gd_cfg p G) _ _ Hb) as (c & Hc & _). congruence. }
      by rewrite !lookup_insert_ne. }
    assert (forall j, pidx p' j = pidx p j) as Hpi by (intros; unfold pidx; by rewrite Hed).
    assert (forall v j, puidx p' v j = puidx p v j) as Hpu by (intros; unfold puidx; by rewrite Hue).
    assert (forall v j, puacc p' v j = puacc p v j) as Hpa by (intros; unfold puacc; by rewrite Hue).
    assert (forall v j, tok_bal p' v j = tok_bal p v j) as Hpb by (intros; unfold tok_bal; by rewrite Hg).
    assert (forall j, ps_ecfg p !! j = None -> pidx p j = 0 /\ (forall v, puidx p v j = 0) /\ (forall v, puacc p v j = 0) /\ eremain p j = 0 /\ forall now, index_at now p j = 0) as Hz.
    { intros j Hj. destruct (eo_none _ _ K _ Hj) as [H1 H2]. unfold pidx, puidx, puacc, eremain, index_at, pidx. rewrite H1, Hj.
      split; [done|]. split; [intros; by rewrite H2|]. split; [intros; by rewrite H2|]. done. }
    split; [|split; [|split]].
    + constructor; rewrite ?Hed, ?Hec, ?Hue; try apply K.
      * intros j c Hj. destruct (eo_eps _ _ K _ _ Hj) as (? & [b Hb] & ?). split; [done|]. split; [|done]. rewrite (Has _ _ Hb). eauto.
      * intros u j e He. rewrite Hpi. by apply K in He.
    + intros D V. exists D. split; [|destruct out; simpl; lia]. intros j l Hl'.
      assert (eremain p' j = eremain p j) as -> by (unfold eremain; by rewrite Hec, Hed).
      destruct (ps_ecfg p !! j) as [c|] eqn:Ec.
      * destruct (eo_eps _ _ K _ _ Ec) as (_ & Hsa & _). destruct (Hold j Hsa) as [Hu _]. rewrite Hu.
        assert (eowed p' j l = eowed p j l) as ->; [|by apply V]. apply sumz_ext. intros v _. by rewrite Hu, Hpi, Hpu, Hpa, Hpb.
      * destruct (Hz j Ec) as (Z1 & Z2 & Z3 & Z4 & _). rewrite Z4.
        assert (eowed p' j l = 0) as ->. { apply sumz_zero. intros v _. rewrite Hpi, Hpu, Hpa, Z1, Z2, Z3. lia. }
        pose proof (ecovered_nonneg _ _ _ j G K V). pose proof (tok_unit_pos p' j G'). nia.
    + intros j. rewrite Hpi. lia.
    + intros v j _. assert (claimable now p' v j = claimable now p v j) as ->; [|split; [lia|done]].
      unfold claimable. rewrite Hpa, Hpb, Hpu. destruct (ps_ecfg p !! j) as [c|] eqn:Ec.
      * destruct (eo_eps _ _ K _ _ Ec) as (_ & Hsa & _). destruct (Hold j Hsa) as [Hu Hs].
        unfold index_at. by rewrite Hec, Hed, Hu, Hs, Hpi.
      * destruct (Hz j Ec) as (Z1 & Z2 & Z3 & _ & Z4). rewrite Z2, Z3, Z4. unfold index_at. rewrite Hec, Ec, Hpi, Z1. by rewrite Z.mul_0_r, !Zdiv_0_l.
  - destruct (accrue_spec _ _ _ _ _ (good_rd _ _ _ G Hd) (cw_valid _ (gd_cfg _ G) _ _ Hc) (cw_rate _ (gd_cfg _ G)) Hac)
      as (Hok & Hbs & Hds & _).
    assert (same_view p p') as S.
    { assert (forall j, asset_of p' j = asset_of p j) as Ha by (intros; unfold asset_of; by rewrite Hl).
      constructor; try done.
      - intros j. unfold tok_unit. rewrite Ha. destruct (asset_of p j) as [b|]; [|done]. simpl. rewrite Hrc.
        destruct (decide (b = a)) as [->|]; [rewrite lookup_insert, Hc; by rewrite Hdec|by rewrite lookup_insert_ne].
      - intros j. unfold tok_supply. rewrite Ha. destruct (asset_of p j) as [b|]; [|done]. simpl. rewrite Hrd.
        destruct (decide (b = a)) as [->|]; [rewrite lookup_insert, Hd; simpl; by rewrite Hbs, Hds|by rewrite lookup_insert_ne].
      - intros u j. unfold tok_bal. by rewrite Hg. }
    apply same_view_effect; try done; by destruct out.
Qed.

Lemma kept_view p p' : kept p p' -> ps_edata p' = ps_edata p -> ps_ecfg p' = ps_ecfg p -> same_view p p'.
Proof.
  intros (H1 & H2 & H3 & H4 & _ & H5 & _) H6 H7. apply same_rdata_view; try done.
  - intros u. unfold get_pos. by rewrite H2.
  - intros a. by rewrite H1.
Qed.

(** calls that leave the emission data alone *)
Ltac ke H := rewrite <- H; simpl; tauto.
Lemma p_exec_emis_same c self px po out px' :
  ps_init (px_p px) = true -> ty_pop po = true -> p_exec c self px po = Ok (out, px') -> moves_of po = false -> po <> PGulp -> (forall a, po <> PSetRes a) ->
  ps_edata (px_p px') = ps_edata (px_p px) /\ ps_ecfg (px_p px') = ps_ecfg (px_p px).
Proof.
  intros Hi Hty H Hm Hg Hs. apply p_exec_cfg in H as [_ H]. cbv zeta in H.
  destruct po; simpl in Hm; try discriminate; try congruence.
  - apply initialize_spec in H as (_ & Hi' & _). congruence.
  - unfold p_set_admin in H. mon H. by ke H.
  - unfold p_update_pool in H. mon H. by ke H.
  - unfold p_queue_reserve in H. mon H. by ke H.
  - unfold p_cancel_reserve in H. mon H. by ke H.
  - destruct H as (s & H & _). unfold p_update_status in H. mon H. first [by ke H | simpl; tauto | match goal with E : _ = px_p px' |- _ => rewrite <- E; simpl; tauto end].
  - apply set_status_range in H as (_ & _ & ->). done.
  - apply set_emis_spec in H as (_ & -> & _); [|done]. done.
Qed.

Lemma p_exec_effect c self px po out px' :
  good (px_p px) -> good (px_p px') -> ty_pop po = true -> emis_ok (c_now c) (px_p px) -> p_exec c self px po = Ok (out, px') ->
  emis_effect (c_now c) (px_p px) po out (px_p px').
Proof.
  intros G G' Hty K H. destruct (moves_of po) eqn:Hm.
  { pose proof (p_exec_labels _ _ _ _ _ _ G Hty Hm H) as (ls & T & Hq & Hcl).
    destruct (ptrace_claimable _ _ _ _ G K T) as (C1 & C2 & C3).
    assert (emis_ok (c_now c) (px_p px')) as K'.
    { clear -G K T. induction T as [p|p l p1 ls p2 M T IH]; [done|]. apply IH; [by eapply pmove_good|by eapply pmove_emis_ok]. }
    split; [done|]. split; [|split; [done|]].
    - intros D V. destruct (ptrace_covered _ _ _ _ D G K T V) as (_ & Hp & D' & V' & M'). exists D'. split; [done|].
      destruct po; simpl in Hm; try discriminate; try (destruct out; simpl; lia).
      destruct Hcl as (es & He & -> & ->). simpl.
      assert (sumz paid (claim_lbls from es) = sumz snd es) as Hs; [|lia]. unfold claim_lbls. rewrite sumz_map. done.
    - intros v j Hf. apply C2. by apply Hq. }
  destruct (p_exec_data _ _ _ _ _ _ G Hty H) as [(? & _)|[(a & -> & Hs)|(_ & Hns & Hk)]]; [congruence| |].
  { by apply res_set_effect. }
  assert (po = PGulp \/ po <> PGulp) as [->|Hng] by (destruct po; first [by left | by right]).
  - simpl in H. rewrite (gd_init _ G) in H. simpl in H. unfold ret_z in H. apply bind_ok in H as ([z px1] & E & H). injection H as <- <-.
    unfold p_gulp in E. apply bind_ok in E as ([new x] & _ & E). apply bind_ok in E as (p1 & E & E'). injection E' as <- <-. simpl in *.
    unfold do_gulp in E. apply assert_ok in E as [Hnew E]. change SCALAR_7 with 10000000 in Hnew.
    assert (0 <= new) as Hn0 by lia.
    assert (forall id v, (id, v) ∈ entries (ps_pemis (px_p px)) -> 0 <= v /\ 0 <= id) as Hes.
    { intros id v Hin. apply elem_of_entries in Hin. destruct (cw_share _ (gd_cfg _ G) _ _ Hin). lia. }
    destruct (gulp_facts _ _ _ _ _ G K Hn0 Hes E) as (_ & K' & V' & P' & C' & _).
    split; [done|]. split; [|split; [done|]].
    + intros D V. destruct (V' D V) as (D' & V2 & M'). exists D'. split; [done|].
      simpl. rewrite M'. pose proof (sum_shares (ps_pemis (px_p px)) new Hn0 (cw_shares _ (gd_cfg _ G))). lia.
    + intros v j _. rewrite C'. split; [lia|done].
  - destruct (p_exec_emis_same _ _ _ _ _ _ (gd_init _ G) Hty H Hm Hng Hns) as [He1 He2].
    apply same_view_effect; [done|by apply kept_view|by destruct po, out|by destruct po, out].
Qed.
