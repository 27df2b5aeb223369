(** * Pool emissions: what a move does to the emission data *)
From Verif Require Import Base Types Token Emitter Factory Backstop PoolReserve PoolUser PoolHealth
  PoolAuction PoolSubmit PoolEmis PoolAdmin World Facts XMove Spec PoolFrame PoolCfg PoolAccrue PoolTrace PoolInv AuctionFacts
  PoolSim PoolReq PoolHF PoolOps PoolLiq PoolReach.

(** ** Observers
    A reserve token id is twice the reserve index, plus 0 for liabilities, plus 1 for
    supply (collateral or not). *)
Definition asset_of (p : PoolSt) (id : Z) : option Addr :=
  if 0 <=? id then ps_list p !! Z.to_nat (id / 2) else None.
(** tokens of user [u] *)
Definition tok_bal (p : PoolSt) (u : Addr) (id : Z) : Z :=
  if id mod 2 =? 0 then get_liab (get_pos p u) (id / 2)
  else get_coll (get_pos p u) (id / 2) + get_sup (get_pos p u) (id / 2).
(** tokens of all users *)
Definition tok_supply (p : PoolSt) (id : Z) : Z :=
  match asset_of p id ≫= (ps_rdata p !!.) with
  | Some d => if id mod 2 =? 0 then rd_d_supply d else rd_b_supply d
  | None => 0
  end.
(** one whole token *)
Definition tok_unit (p : PoolSt) (id : Z) : Z :=
  match asset_of p id ≫= (ps_rcfg p !!.) with Some c => 10 ^ rc_decimals c | None => 1 end.

(** index of a token and of a user; an absent entry counts as zero *)
Definition pidx (p : PoolSt) (id : Z) : Z := default 0 (ed_index <$> ps_edata p !! id).
Definition puidx (p : PoolSt) (u : Addr) (id : Z) : Z := default 0 (ue_index <$> ps_uemis p !! (u, id)).
Definition puacc (p : PoolSt) (u : Addr) (id : Z) : Z := default 0 (ue_accrued <$> ps_uemis p !! (u, id)).

(** the id of a position kind in a reserve *)
Lemma tok_of_tid p k a cfg d u :
  good p -> ps_rcfg p !! a = Some cfg -> ps_rdata p !! a = Some d ->
  let id := tid k (rc_index cfg) in
  0 <= id /\ asset_of p id = Some a /\ tok_bal p u id = ebal k (get_pos p u) (rc_index cfg) /\
  tok_supply p id = sup_k k d /\ tok_unit p id = 10 ^ rc_decimals cfg.
Proof.
  intros G Hc Hd. cbv zeta. destruct (good_index_bound p a cfg (gd_cfg p G) Hc) as [Hb Hl].
  assert (tid k (rc_index cfg) / 2 = rc_index cfg /\ (tid k (rc_index cfg) mod 2 =? 0) = match k with KLiab => true | _ => false end) as [H1 H2].
  { destruct k; unfold tid.
    - rewrite Z.div_mul, Z.mod_mul by lia. done.
    - rewrite Z.div_add_l, (Z.add_comm (rc_index cfg * 2)), Z.mod_add by lia. split; [|done]. change (1 / 2) with 0. lia.
    - rewrite Z.div_add_l, (Z.add_comm (rc_index cfg * 2)), Z.mod_add by lia. split; [|done]. change (1 / 2) with 0. lia. }
  assert (0 <= tid k (rc_index cfg)) as Hn by (destruct k; simpl; lia).
  assert (asset_of p (tid k (rc_index cfg)) = Some a) as Ha.
  { unfold asset_of. rewrite (proj2 (Z.leb_le _ _) Hn). by rewrite H1. }
  split; [done|]. split; [done|].
  unfold tok_bal, tok_supply, tok_unit. rewrite Ha, H1, H2. simpl. rewrite Hc, Hd. by destruct k.
Qed.

Lemma tok_bal_nonneg p u id : good p -> 0 <= tok_bal p u id.
Proof.
  intros G. unfold tok_bal. destruct (id mod 2 =? 0).
  - apply (ebal_nonneg p u (id / 2) KLiab), G.
  - apply (ebal_nonneg p u (id / 2) KColl), G.
Qed.
Lemma tok_unit_pos p id : good p -> 0 < tok_unit p id.
Proof.
  intros G. unfold tok_unit. destruct (asset_of p id) as [a|]; simpl; [|lia].
  destruct (ps_rcfg p !! a) as [cfg|] eqn:E; [|lia].
  pose proof (cw_valid _ (gd_cfg _ G) _ _ E) as Hb. apply Z.pow_pos_nonneg; [lia|].
  unfold cfg_bounds in Hb. lia.
Qed.

Lemma sum_le_map (f : Positions -> Z) (l : list Addr) : forall m : gmap Addr Positions,
  (forall u pos, m !! u = Some pos -> 0 <= f pos) -> f no_positions = 0 -> NoDup l ->
  sumz (fun u => f (default no_positions (m !! u))) l <= sumz (fun e => f e.2) (map_to_list m).
Proof.
  induction l as [|u l IH]; intros m Hm H0 Hl.
  - apply sumz_nonneg. intros [u pos] Hin. apply elem_of_map_to_list in Hin. by eapply Hm.
  - apply NoDup_cons in Hl as [Hu Hl].
    change (f (default no_positions (m !! u)) + sumz (fun u => f (default no_positions (m !! u))) l <= sumz (fun e => f e.2) (map_to_list m)).
    destruct (m !! u) as [pos|] eqn:E.
    + assert (sumz (fun e => f e.2) (map_to_list m) = f pos + sumz (fun e => f e.2) (map_to_list (delete u m))) as ->.
      { rewrite <- (insert_delete m u pos E) at 1.
        rewrite (sumz_perm _ _ _ (map_to_list_insert _ _ pos (lookup_delete m u))). done. }
      assert (sumz (fun v => f (default no_positions (m !! v))) l = sumz (fun v => f (default no_positions (delete u m !! v))) l) as ->.
      { apply sumz_ext. intros v Hv. rewrite lookup_delete_ne; [done|]. by intros ->. }
      assert (forall v pos, delete u m !! v = Some pos -> 0 <= f pos) as Hd.
      { intros v pos' Hv. apply lookup_delete_Some in Hv as [_ Hv]. by eapply Hm. }
      specialize (IH (delete u m) Hd H0 Hl). change (default no_positions (Some pos)) with pos. lia.
    + change (default no_positions None) with no_positions. rewrite H0. specialize (IH m Hm H0 Hl). lia.
Qed.
Lemma total_list k p i l : pos_ok p -> NoDup l -> sumz (fun u => ebal k (get_pos p u) i) l <= total_k k p i.
Proof.
  intros Hp Hl. unfold total_k, get_pos. apply (sum_le_map (fun pos => ebal k pos i)); [|apply ebal_none|done].
  intros u pos Hu. apply ebal_nonneg_pos. intros; by eapply pos_ok_pos.
Qed.
(** the supply of a token covers the balances of any users *)
Lemma tok_list p id l : good p -> is_Some (asset_of p id) -> NoDup l -> sumz (fun u => tok_bal p u id) l <= tok_supply p id.
Proof.
  intros G [a Ha] Hl. pose proof Ha as Ha'. unfold asset_of in Ha'. destruct (Z.leb_spec 0 id) as [Hid|]; [|discriminate].
  destruct (cw_idx p (gd_cfg p G) _ _ Ha') as (cfg & Hc & Hi).
  destruct (proj1 (gd_dom p G a)) as [d Hd]; [by eexists|].
  rewrite Z2Nat.id in Hi by (apply Z.div_pos; lia).
  set (k := if id mod 2 =? 0 then KLiab else KColl).
  assert (tok_supply p id = sup_k k d) as ->.
  { unfold tok_supply, k. rewrite Ha. simpl. rewrite Hd. by destruct (id mod 2 =? 0). }
  rewrite (gd_sum p G k a cfg d Hc Hd), Hi.
  etransitivity; [|apply (total_list k p (id / 2) l (gd_pos p G) Hl)].
  apply Z.eq_le_incl, sumz_ext. intros u _. unfold tok_bal, k. by destruct (id mod 2 =? 0).
Qed.

(** ** What a user can claim *)
(** the index of a token at time [now]: the stored one plus the emissions per token
    since the last update, up to the expiration; while nobody holds the token
    nothing accrues *)
Definition index_at (now : Z) (p : PoolSt) (id : Z) : Z :=
  match ps_ecfg p !! id, ps_edata p !! id with
  | Some cfg, Some d =>
      if tok_supply p id =? 0 then ed_index d
      else ed_index d + Z.max 0 (Z.min (ec_exp cfg) now - ed_last d) * ec_eps cfg * tok_unit p id / tok_supply p id
  | _, _ => pidx p id
  end.
Definition claimable (now : Z) (p : PoolSt) (u : Addr) (id : Z) : Z :=
  puacc p u id + tok_bal p u id * (index_at now p id - puidx p u id) / tok_unit p id.

(** ** The functions *)
Lemma set_edata_id p id d : ps_edata p !! id = Some d -> set_edata p id d = p.
Proof. intros H. unfold set_edata. rewrite insert_id by done. by destruct p. Qed.
Lemma set_uemis_id p u id d : ps_uemis p !! (u, id) = Some d -> set_uemis p u id d = p.
Proof. intros H. unfold set_uemis. rewrite insert_id by done. by destruct p. Qed.

Lemma update_edata_spec now p id s sc cfg d' p' :
  update_edata now p id s sc cfg = Ok (d', p') -> 0 <= s -> 0 <= ec_eps cfg ->
  exists d, ps_edata p !! id = Some d /\ p' = set_edata p id d' /\
    (d' = d /\ (ec_exp cfg <= ed_last d \/ now = ed_last d \/ ec_eps cfg = 0 \/ s = 0) \/
     ed_last d' = Z.min (ec_exp cfg) now /\ ed_last d < ec_exp cfg /\ ed_last d < now /\ 0 < ec_eps cfg /\ 0 < s /\
     ed_index d' = ed_index d + (Z.min (ec_exp cfg) now - ed_last d) * ec_eps cfg * sc / s).
Proof.
  unfold update_edata. intros H Hs He. destruct (ps_edata p !! id) as [d|] eqn:Ed; [|discriminate]. simpl in H.
  exists d. split; [done|]. destruct (_ || _) eqn:Ec.
  - injection H as <- <-. split; [by rewrite set_edata_id|]. left. split; [done|].
    rewrite !orb_true_iff in Ec. lia.
  - rewrite !orb_false_iff in Ec. mon H. apply u64_ok in E as [-> Ht]. apply i128_ok in E0 as [-> _].
    apply fdiv_floor_ok in E1 as [-> _]; [|lia]. apply i128_ok in E2 as [-> _]. split; [done|]. right.
    assert ((if ec_exp cfg <? now then ec_exp cfg else now) = Z.min (ec_exp cfg) now) as Hmin
      by (clear; destruct (Z.ltb_spec (ec_exp cfg) now); lia).
    rewrite Hmin in *. simpl. split; [done|]. split; [lia|]. split; [lia|]. split; [lia|]. split; lia.
Qed.

Lemma update_user_emis_spec p d id sc u bal cl n p' :
  update_user_emis p d id sc u bal cl = Ok (n, p') -> 0 < sc ->
  let acc := puacc p u id + bal * (ed_index d - puidx p u id) / sc in
  (bal = 0 \/ ps_uemis p !! (u, id) = None \/ puidx p u id <= ed_index d) /\
  n = (if cl then acc else 0) /\ p' = set_uemis p u id (mkUserEmis (ed_index d) (if cl then 0 else acc)).
Proof.
  unfold update_user_emis, set_user_emis, puacc, puidx. intros H Hsc. cbv zeta.
  destruct (ps_uemis p !! (u, id)) as [ud|] eqn:Eu; simpl.
  - destruct (negb _ || cl) eqn:Ec.
    + destruct (bal =? 0) eqn:Es.
      * apply Ok_inj in H. replace bal with 0 by lia. rewrite Z.mul_0_l, Zdiv_0_l, Z.add_0_r. destruct cl; simplify_eq; auto.
      * mon1 H. mon1 H. mon1 H. mon1 H. apply i128_ok in E as [-> _]. unfold p_nonneg in E0. destruct (_ <? 0) eqn:En in E0; [discriminate|].
        apply fmul_floor_ok in E1 as [-> _]; [|done]. apply i128_ok in E2 as [-> _].
        apply Ok_inj in H. destruct cl; simplify_eq; (split; [right; right; lia|auto]).
    + mon H. apply orb_false_iff in Ec as [Ec ->]. apply negb_false_iff in Ec.
      replace (ed_index d - ue_index ud) with 0 by lia. rewrite Z.mul_0_r, Zdiv_0_l, Z.add_0_r.
      split; [right; right; lia|]. split; [done|].
      replace (mkUserEmis (ed_index d) (ue_accrued ud)) with ud by (destruct ud; simpl in *; f_equal; lia).
      by rewrite set_uemis_id.
  - destruct (bal =? 0) eqn:Es.
    + apply Ok_inj in H. replace bal with 0 by lia. rewrite Z.mul_0_l, Zdiv_0_l. destruct cl; simplify_eq; auto.
    + mon1 H. apply fmul_floor_ok in E as [-> _]; [|done]. apply Ok_inj in H. rewrite Z.sub_0_r, Z.add_0_l.
      destruct cl; simplify_eq; auto.
Qed.

(** ** The invariant of the emission data *)
Record emis_ok (now : Z) (p : PoolSt) : Prop := {
  eo_idx : forall id d, ps_edata p !! id = Some d -> 0 <= ed_index d /\ ed_last d <= now;
  eo_eps : forall id c, ps_ecfg p !! id = Some c -> 0 <= ec_eps c /\ is_Some (asset_of p id) /\ is_Some (ps_edata p !! id);
  eo_none : forall id, ps_ecfg p !! id = None -> ps_edata p !! id = None /\ forall u, ps_uemis p !! (u, id) = None;
  eo_user : forall u id e, ps_uemis p !! (u, id) = Some e -> 0 <= ue_index e <= pidx p id /\ 0 <= ue_accrued e
}.
Lemma puidx_range now p u id : emis_ok now p -> 0 <= puidx p u id <= pidx p id.
Proof.
  intros H. unfold puidx. destruct (ps_uemis p !! (u, id)) as [e|] eqn:E; simpl.
  - by apply (eo_user _ _ H) in E as [? _].
  - unfold pidx. destruct (ps_edata p !! id) as [d|] eqn:Ed; simpl; [|lia]. apply (eo_idx _ _ H) in Ed as [? _]. lia.
Qed.
Lemma puacc_nonneg now p u id : emis_ok now p -> 0 <= puacc p u id.
Proof.
  intros H. unfold puacc. destruct (ps_uemis p !! (u, id)) as [e|] eqn:E; simpl; [|lia].
  by apply (eo_user _ _ H) in E as [_ ?].
Qed.
Lemma pidx_le_index_at now now' p id : emis_ok now p -> good p -> pidx p id <= index_at now' p id.
Proof.
  intros H G. unfold index_at. destruct (ps_ecfg p !! id) as [cfg|] eqn:Ec; [|lia].
  destruct (eo_eps _ _ H _ _ Ec) as (He & Ha & [d Ed]). rewrite Ed. unfold pidx. rewrite Ed. simpl.
  destruct (tok_supply p id =? 0) eqn:Es; [lia|].
  pose proof (tok_list p id [] G Ha ltac:(constructor)) as Hs. simpl in Hs. pose proof (tok_unit_pos p id G).
  assert (0 <= Z.max 0 (Z.min (ec_exp cfg) now' - ed_last d) * ec_eps cfg * tok_unit p id / tok_supply p id); [|lia].
  apply Z.div_pos; [|lia]. repeat apply Z.mul_nonneg_nonneg; lia.
Qed.

(** an emission update, on a token with emissions *)
Lemma p_emissions_some now p k a cfg d u cl n p' ec :
  good p -> emis_ok now p -> ps_rcfg p !! a = Some cfg -> ps_rdata p !! a = Some d ->
  let id := tid k (rc_index cfg) in
  p_emissions now p id (sup_k k d) (10 ^ rc_decimals cfg) u (ebal k (get_pos p u) (rc_index cfg)) cl = Ok (n, p') ->
  ps_ecfg p !! id = Some ec ->
  exists e e' ue, ps_edata p !! id = Some e /\ p' = set_uemis (set_edata p id e') u id ue /\
    (e' = e \/ ed_last e' = Z.min (ec_exp ec) now /\ ed_last e < ed_last e') /\
    ed_index e' = index_at now p id /\
    (tok_supply p id = 0 \/ ec_exp ec <= ed_last e' \/ now = ed_last e' \/ ec_eps ec = 0) /\
    ue_index ue = ed_index e' /\
    ue_accrued ue + n = claimable now p u id /\
    (if cl then ue_accrued ue = 0 else n = 0).
Proof.
  intros G K Hc Hd id H He. destruct (tok_of_tid p k a cfg d u G Hc Hd) as (Hid & Ha & Hb & Hs & Hu). fold id in Hid, Ha, Hb, Hs, Hu.
  rewrite <- Hb, <- Hs, <- Hu in H. unfold p_emissions in H. rewrite He in H. apply bind_ok in H as ([e' p1] & E1 & H).
  destruct (eo_eps _ _ K _ _ He) as (Heps & Hsa & _).
  pose proof (tok_list p id [] G Hsa ltac:(constructor)) as Hs0. simpl in Hs0. pose proof (tok_unit_pos p id G) as Hup.
  apply update_edata_spec in E1 as (e & Ee & -> & Hor); [|done|done].
  destruct (eo_idx _ _ K _ _ Ee) as [Hei Hel].
  apply update_user_emis_spec in H as (_ & Hn & ->); [|done]. 
  eexists e, e', _. split; [done|]. split; [done|].
  assert (ed_index e' = index_at now p id) as Hia.
  { unfold index_at. rewrite He, Ee. destruct (tok_supply p id =? 0) eqn:Ez.
    - destruct Hor as [[-> _]|(_ & _ & _ & _ & ? & _)]; [done|lia].
    - destruct Hor as [[-> Hz]|(? & ? & ? & ? & ? & ->)].
      + assert (Z.max 0 (Z.min (ec_exp ec) now - ed_last e) * ec_eps ec = 0) as ->.
        { destruct Hz as [?|[?|[->|?]]]; [..|lia|lia]; [rewrite Z.max_l by lia; lia|rewrite Z.max_l by lia; lia]. }
        rewrite Z.mul_0_l, Zdiv_0_l. lia.
      + rewrite Z.max_r by lia. done. }
  split. { destruct Hor as [[-> _]|(? & ? & ? & _)]; [by left|right; split; [done|lia]]. }
  split; [done|].
  split. { destruct Hor as [[-> ?]|(-> & ? & ? & _)]; [tauto|]. destruct (Z.min_spec (ec_exp ec) now); lia. }
  split; [done|]. unfold claimable. rewrite <- Hia. unfold puacc, puidx in *. simpl in *. destruct cl; simpl; subst n; split; lia.
Qed.

(** ** Moves *)
(** states that look the same to the emission code *)
Record same_view (p p' : PoolSt) : Prop := {
  sv_ecfg : ps_ecfg p' = ps_ecfg p;
  sv_edata : ps_edata p' = ps_edata p;
  sv_uemis : ps_uemis p' = ps_uemis p;
  sv_asset : forall id, asset_of p' id = asset_of p id;
  sv_unit : forall id, tok_unit p' id = tok_unit p id;
  sv_sup : forall id, tok_supply p' id = tok_supply p id;
  sv_bal : forall u id, tok_bal p' u id = tok_bal p u id
}.
(** only the balance of [u] in [id] and the supply of [id] change *)
Record chg_view (u : Addr) (id : Z) (p p' : PoolSt) : Prop := {
  cv_ecfg : ps_ecfg p' = ps_ecfg p;
  cv_edata : ps_edata p' = ps_edata p;
  cv_uemis : ps_uemis p' = ps_uemis p;
  cv_asset : forall j, asset_of p' j = asset_of p j;
  cv_unit : forall j, tok_unit p' j = tok_unit p j;
  cv_sup : forall j, j <> id -> tok_supply p' j = tok_supply p j;
  cv_bal : forall v j, ~ (v = u /\ j = id) -> tok_bal p' v j = tok_bal p v j
}.

Lemma same_rdata_view p p' :
  ps_ecfg p' = ps_ecfg p -> ps_edata p' = ps_edata p -> ps_uemis p' = ps_uemis p -> ps_list p' = ps_list p -> ps_rcfg p' = ps_rcfg p ->
  (forall u, get_pos p' u = get_pos p u) ->
  (forall a, (rd_b_supply <$> ps_rdata p' !! a) = (rd_b_supply <$> ps_rdata p !! a) /\
             (rd_d_supply <$> ps_rdata p' !! a) = (rd_d_supply <$> ps_rdata p !! a)) ->
  same_view p p'.
Proof.
  intros H1 H2 H3 H4 H5 H6 H7.
  assert (forall id, asset_of p' id = asset_of p id) as Ha by (intros; unfold asset_of; by rewrite H4).
  constructor; try done.
  - intros id. unfold tok_unit. by rewrite Ha, H5.
  - intros id. unfold tok_supply. rewrite Ha. destruct (asset_of p id) as [a|]; [|done]. simpl.
    destruct (H7 a) as [Hb Hd]. destruct (ps_rdata p' !! a), (ps_rdata p !! a); simpl in *; try discriminate; [|done].
    injection Hb as ->. injection Hd as ->. done.
  - intros u id. unfold tok_bal. by rewrite H6.
Qed.

Lemma pmove_view now p l p' : good p -> pmove now p l p' ->
  match l with
  | LPos k u a dl => exists id n p1, pmove now p (LEmis u id false n) p1 /\ chg_view u id p1 p'
  | LEmis _ _ _ _ => True
  | _ => same_view p p'
  end.
Proof.
  intros G H. destruct H as [a cfg d d' H1 H2 H3|k u a dl cfg d n p1 H1 H2 H3 H4 H5 H6 H7|a n d H1 H2 H3|k u a cfg d cl n p1 H1 H2 H3|u|m]; try done.
  - destruct (accrue_spec _ _ _ _ _ (good_rd _ _ _ G H2) (cw_valid _ (gd_cfg _ G) _ _ H1) (cw_rate _ (gd_cfg _ G)) H3)
      as (_ & Hbs & Hds & _).
    apply same_rdata_view; try done. intros b. simpl. destruct (decide (b = a)) as [->|]; [|by rewrite lookup_insert_ne].
    rewrite lookup_insert, H2. simpl. by rewrite Hbs, Hds.
  - pose proof (pm_emis now p k u a cfg d false n p1 H1 H2 H5) as M.
    pose proof (p_emissions_emis _ _ _ _ _ _ _ _ _ _ H5) as Hs.
    exists (tid k (rc_index cfg)), n, p1. split; [done|].
    destruct (tok_of_tid p k a cfg d u G H1 H2) as (Hid & Ha & _).
    assert (ps_list p1 = ps_list p /\ ps_rcfg p1 = ps_rcfg p /\ ps_rdata p1 = ps_rdata p /\ ps_pos p1 = ps_pos p) as (L1 & L2 & L3 & L4) by (rewrite Hs; done).
    destruct (good_index_bound p a cfg (gd_cfg p G) H1) as [Hib Hil].
    constructor; try done.
    + intros j Hj. unfold tok_supply, asset_of. simpl. rewrite L1. destruct (Z.leb_spec 0 j) as [Hn|]; [|done].
      destruct (ps_list p !! Z.to_nat (j / 2)) as [b|] eqn:Eb; [|done]. simpl. rewrite L3.
      destruct (decide (b = a)) as [->|Hne]; [|by rewrite lookup_insert_ne].
      rewrite lookup_insert, H2.
      assert (j / 2 = rc_index cfg) as Hji.
      { assert (Z.to_nat (j / 2) = Z.to_nat (rc_index cfg)) as He by (eapply (NoDup_lookup (ps_list p)); [apply (cw_nodup _ (gd_cfg _ G))|done|done]).
        assert (0 <= j / 2) by (apply Z.div_pos; lia). lia. }
      pose proof (Z.div_mod j 2 ltac:(lia)) as Hdm. pose proof (Z.mod_pos_bound j 2 ltac:(lia)) as Hmb.
      destruct (Z.eqb_spec (j mod 2) 0) as [Hm|Hm]; destruct k; simpl in *; try done; exfalso; apply Hj; lia.
    + intros v j Hvj. unfold tok_bal. rewrite get_pos_set_ps.
      assert (get_pos p1 v = get_pos p v) as -> by (unfold get_pos; by rewrite L4).
      destruct (decide (v = u)) as [->|]; [|done].
      pose proof (Z.div_mod j 2 ltac:(lia)) as Hdm. pose proof (Z.mod_pos_bound j 2 ltac:(lia)) as Hmb.
      assert (forall k', getz (get_k k' (set_k k (put (get_k k (get_pos p u)) (rc_index cfg) (getz (get_k k (get_pos p u)) (rc_index cfg) + dl)) (get_pos p u))) (j / 2)
        = if decide (k = k' /\ rc_index cfg = j / 2) then getz (get_k k (get_pos p u)) (rc_index cfg) + dl else getz (get_k k' (get_pos p u)) (j / 2)) as Hk.
      { intros k'. rewrite get_set_k. destruct (decide (k = k')) as [->|]; [|by rewrite decide_False by tauto].
        rewrite getz_put. destruct (decide (rc_index cfg = j / 2)); [by rewrite decide_True|by rewrite decide_False by tauto]. }
      pose proof (Hk KLiab) as K1. pose proof (Hk KColl) as K2. pose proof (Hk KSup) as K3. simpl in K1, K2, K3.
      unfold get_liab, get_coll, get_sup. rewrite K1, K2, K3.
      destruct (Z.eqb_spec (j mod 2) 0) as [Hm|Hm].
      * rewrite decide_False; [done|]. intros [-> Hi]. apply Hvj. split; [done|]. simpl. lia.
      * rewrite !decide_False; [done|..]; intros [-> Hi]; apply Hvj; (split; [done|]); simpl; lia.
  - apply same_rdata_view; try done. intros b. simpl. destruct (decide (b = a)) as [->|]; [|by rewrite lookup_insert_ne].
    by rewrite lookup_insert, H1.
  - apply same_rdata_view; try done. intros v. unfold get_pos. simpl.
    destruct (decide (v = u)) as [->|]; [rewrite lookup_insert|rewrite lookup_insert_ne by done]; done.
Qed.

(** ** [emis_ok] is preserved *)
Lemma same_view_ok now p p' : same_view p p' -> emis_ok now p -> emis_ok now p'.
Proof.
  intros [S1 S2 S3 S4 S5 S6 S7] [K1 K2 K3 K4]. constructor; rewrite ?S1, ?S2, ?S3.
  - done.
  - intros id c Hc. rewrite S4. by apply K2.
  - done.
  - intros u id e He. unfold pidx. rewrite S2. by apply K4 in He.
Qed.
Lemma chg_view_ok now u id p p' : chg_view u id p p' -> emis_ok now p -> emis_ok now p'.
Proof.
  intros [S1 S2 S3 S4 S5 S6 S7] [K1 K2 K3 K4]. constructor; rewrite ?S1, ?S2, ?S3.
  - done.
  - intros i c Hc. rewrite S4. by apply K2.
  - done.
  - intros v i e He. unfold pidx. rewrite S2. by apply K4 in He.
Qed.
Lemma claimable_nonneg now' now p u id : emis_ok now p -> good p -> puacc p u id <= claimable now' p u id.
Proof.
  intros K G. unfold claimable. pose proof (puidx_range _ _ u id K). pose proof (pidx_le_index_at _ now' _ id K G).
  pose proof (tok_bal_nonneg p u id G). pose proof (tok_unit_pos p id G).
  assert (0 <= tok_bal p u id * (index_at now' p id - puidx p u id) / tok_unit p id); [|lia].
  apply Z.div_pos; [|lia]. apply Z.mul_nonneg_nonneg; lia.
Qed.

(** an emission update as one statement, with or without emissions configured *)
Definition emis_upd (now : Z) (p : PoolSt) (u : Addr) (id : Z) (cl : bool) (n : Z) (p' : PoolSt) : Prop :=
  (ps_ecfg p !! id = None /\ n = 0 /\ p' = p) \/
  (exists ec e e' ue, ps_ecfg p !! id = Some ec /\ ps_edata p !! id = Some e /\ p' = set_uemis (set_edata p id e') u id ue /\
    (e' = e \/ ed_last e' = Z.min (ec_exp ec) now /\ ed_last e < ed_last e') /\
    ed_index e' = index_at now p id /\
    (tok_supply p id = 0 \/ ec_exp ec <= ed_last e' \/ now = ed_last e' \/ ec_eps ec = 0) /\
    ue_index ue = ed_index e' /\ ue_accrued ue + n = claimable now p u id /\ (if cl then ue_accrued ue = 0 else n = 0)).
Lemma pmove_emis_upd now p u id cl n p' : good p -> emis_ok now p -> pmove now p (LEmis u id cl n) p' -> emis_upd now p u id cl n p'.
Proof.
  intros G K H. inversion H as [| | |k u' a cfg d cl' n' p1 H1 H2 H3| |]; subst.
  destruct (ps_ecfg p !! tid k (rc_index cfg)) as [ec|] eqn:Ec.
  - right. destruct (p_emissions_some _ _ _ _ _ _ _ _ _ _ _ G K H1 H2 H3 Ec) as (e & e' & ue & ?). by exists ec, e, e', ue.
  - left. unfold p_emissions in H3. rewrite Ec in H3. injection H3 as <- <-. done.
Qed.
(** observers after an emission update *)
Lemma upd_obs p u id e' ue :
  let p' := set_uemis (set_edata p id e') u id ue in
  (forall j, asset_of p' j = asset_of p j) /\ (forall j, tok_unit p' j = tok_unit p j) /\
  (forall j, tok_supply p' j = tok_supply p j) /\ (forall v j, tok_bal p' v j = tok_bal p v j) /\
  (forall j, pidx p' j = if decide (j = id) then ed_index e' else pidx p j) /\
  (forall v j, puidx p' v j = if decide (v = u /\ j = id) then ue_index ue else puidx p v j) /\
  (forall v j, puacc p' v j = if decide (v = u /\ j = id) then ue_accrued ue else puacc p v j).
Proof.
  cbv zeta. split; [done|]. split; [done|]. split; [done|]. split; [done|]. split; [|split].
  - intros j. unfold pidx. simpl. destruct (decide (j = id)) as [->|]; [by rewrite lookup_insert|by rewrite lookup_insert_ne].
  - intros v j. unfold puidx. simpl. destruct (decide (v = u /\ j = id)) as [[-> ->]|Hn]; [by rewrite lookup_insert|].
    rewrite lookup_insert_ne; [done|]. intros [= -> ->]. by apply Hn.
  - intros v j. unfold puacc. simpl. destruct (decide (v = u /\ j = id)) as [[-> ->]|Hn]; [by rewrite lookup_insert|].
    rewrite lookup_insert_ne; [done|]. intros [= -> ->]. by apply Hn.
Qed.

Lemma emis_upd_ok now p u id cl n p' : good p -> emis_ok now p -> emis_upd now p u id cl n p' -> emis_ok now p' /\ 0 <= n.
Proof.
  intros G K [(Ec & -> & ->)|(ec & e & e' & ue & Ec & Ee & -> & Hor & Hi & _ & Hui & Hua & Hcl)]; [done|].
  pose proof (claimable_nonneg now _ _ u id K G) as Hcn. pose proof (puacc_nonneg _ _ u id K) as Han.
  pose proof (pidx_le_index_at _ now _ id K G) as Hle.
  destruct (eo_idx _ _ K _ _ Ee) as [Hi0 Hl0].
  assert (pidx p id = ed_index e) as Hpi by (unfold pidx; by rewrite Ee).
  assert (0 <= ue_accrued ue /\ 0 <= n) as [Hu0 Hn0] by (destruct cl; lia).
  split; [|done]. destruct (upd_obs p u id e' ue) as (_ & _ & _ & _ & Op & _).
  constructor; simpl.
  - intros j d. rewrite lookup_insert_Some. intros [[<- <-]|[_ Hj]]; [|by eapply K]. split; [lia|]. destruct Hor as [->|[-> _]]; lia.
  - intros j c Hc. destruct (eo_eps _ _ K _ _ Hc) as (? & ? & ?). split; [done|]. split; [done|].
    destruct (decide (j = id)) as [->|]; [rewrite lookup_insert; eauto|by rewrite lookup_insert_ne].
  - intros j Hj. destruct (eo_none _ _ K _ Hj) as [H1 H2]. assert (j <> id) by congruence.
    rewrite lookup_insert_ne by done. split; [done|]. intros v. rewrite lookup_insert_ne; [done|congruence].
  - intros v j x. rewrite lookup_insert_Some. intros [[[= <- <-] <-]|[Hne Hj]].
    + rewrite Op, decide_True by done. lia.
    + apply (eo_user _ _ K) in Hj as [H1 H2]. split; [|done]. rewrite Op. destruct (decide (j = id)) as [->|]; [lia|done].
Qed.

Lemma pmove_emis_ok now p l p' : good p -> emis_ok now p -> pmove now p l p' -> emis_ok now p'.
Proof.
  intros G K H. pose proof (pmove_view _ _ _ _ G H) as V. destruct l as [a|k u a dl|a n|u id cl n|u|]; try (by eapply same_view_ok).
  - destruct V as (id & n & p1 & M & C). eapply chg_view_ok; [exact C|]. eapply emis_upd_ok; [exact G|exact K|by apply pmove_emis_upd].
  - eapply emis_upd_ok; [exact G|exact K|by apply pmove_emis_upd].
Qed.

(** ** Claims never exceed allocations *)
Definition eremain (p : PoolSt) (id : Z) : Z :=
  match ps_ecfg p !! id, ps_edata p !! id with
  | Some cfg, Some d => ec_eps cfg * Z.max 0 (ec_exp cfg - ed_last d)
  | _, _ => 0
  end.
Definition eowed (p : PoolSt) (id : Z) (l : list Addr) : Z :=
  sumz (fun u => tok_unit p id * puacc p u id + tok_bal p u id * (pidx p id - puidx p u id)) l.
(** [D] is what is allocated to each token and not yet claimed *)
Definition ecovered (D : gmap Z Z) (p : PoolSt) : Prop := forall id l, NoDup l ->
  eowed p id l + tok_unit p id * eremain p id <= tok_unit p id * getz D id.

(** advancing the index of [id] hands out at most the elapsed emissions *)
Lemma index_covered now p id ec e e' l :
  good p -> emis_ok now p -> ps_ecfg p !! id = Some ec -> ps_edata p !! id = Some e ->
  e' = e \/ ed_last e' = Z.min (ec_exp ec) now /\ ed_last e < ed_last e' ->
  ed_index e' = index_at now p id -> NoDup l ->
  eowed (set_edata p id e') id l + tok_unit p id * eremain (set_edata p id e') id <= eowed p id l + tok_unit p id * eremain p id.
Proof.
  intros G K Ec Ee [->|[Hl Hlt]] Hi Hl'; [rewrite set_edata_id by done; lia|].
  set (p' := set_edata p id e').
  destruct (eo_eps _ _ K _ _ Ec) as (Heps & Ha & _).
  pose proof (tok_unit_pos p id G) as Hu. pose proof (tok_list p id l G Ha Hl') as Hs.
  assert (0 <= sumz (fun u => tok_bal p u id) l) as Hs0 by (apply sumz_nonneg; intros; by apply tok_bal_nonneg).
  assert (pidx p id = ed_index e) as Hpi by (unfold pidx; by rewrite Ee).
  set (A := ed_index e' - ed_index e). set (E := (ed_last e' - ed_last e) * ec_eps ec).
  assert (eowed p' id l = eowed p id l + A * sumz (fun u => tok_bal p u id) l) as ->.
  { unfold eowed. rewrite <- sumz_mul, <- sumz_add. apply sumz_ext. intros u _.
    assert (pidx p' id = ed_index e') as -> by (unfold pidx, p'; simpl; by rewrite lookup_insert).
    change (tok_unit p' id) with (tok_unit p id). change (puacc p' u id) with (puacc p u id).
    change (tok_bal p' u id) with (tok_bal p u id). change (puidx p' u id) with (puidx p u id). rewrite Hpi. unfold A. lia. }
  assert (eremain p' id = eremain p id - E) as ->.
  { unfold eremain, p', E. simpl. rewrite Ec, lookup_insert, Ee. rewrite !Z.max_r by lia. lia. }
  assert (A * sumz (fun u => tok_bal p u id) l <= tok_unit p id * E); [|lia].
  unfold index_at in Hi. rewrite Ec, Ee in Hi. rewrite Z.max_r in Hi by lia. rewrite <- Hl in Hi. fold E in Hi.
  destruct (Z.eqb_spec (tok_supply p id) 0) as [Hz|Hz].
  - assert (A = 0) as -> by (unfold A; lia). assert (0 <= E) by (unfold E; apply Z.mul_nonneg_nonneg; lia).
    assert (0 <= tok_unit p id * E) by (apply Z.mul_nonneg_nonneg; lia). lia.
  - assert (A = E * tok_unit p id / tok_supply p id) as HA by (unfold A; lia).
    pose proof (fdiv_spec (E * tok_unit p id) (tok_supply p id) ltac:(lia)) as Hf. rewrite <- HA in Hf.
    assert (0 <= A). { rewrite HA. apply Z.div_pos; [|lia]. unfold E. repeat apply Z.mul_nonneg_nonneg; lia. }
    assert (A * sumz (fun u => tok_bal p u id) l <= A * tok_supply p id) by (apply Z.mul_le_mono_nonneg_l; lia). lia.
Qed.

Lemma getz_insert (D : gmap Z Z) i v j : getz (<[i := v]> D) j = if decide (j = i) then v else getz D j.
Proof. unfold getz. destruct (decide (j = i)) as [->|]; [by rewrite lookup_insert|by rewrite lookup_insert_ne]. Qed.

Lemma emis_upd_covered now p u id cl n p' D :
  good p -> emis_ok now p -> emis_upd now p u id cl n p' -> ecovered D p -> ecovered (<[id := getz D id - n]> D) p'.
Proof.
  intros G K H V j l Hl. pose proof (emis_upd_ok _ _ _ _ _ _ _ G K H) as [K' Hn].
  destruct H as [(Ec & -> & ->)|(ec & e & e' & ue & Ec & Ee & -> & Hor & Hi & _ & Hui & Hua & Hcl)].
  { rewrite getz_insert. specialize (V j l Hl). destruct (decide (j = id)) as [->|]; [|done]. by rewrite Z.sub_0_r. }
  destruct (upd_obs p u id e' ue) as (_ & Ou & _ & Ob & Op & Oui & Oua). set (p2 := set_uemis _ _ _ _) in *.
  rewrite getz_insert, Ou. destruct (decide (j = id)) as [->|Hne].
  2:{ assert (eremain p2 j = eremain p j) as -> by (unfold eremain, p2; simpl; by rewrite lookup_insert_ne).
      assert (eowed p2 j l = eowed p j l) as ->; [|by apply V].
      apply sumz_ext. intros v _. rewrite Ou, Ob, Op, Oui, Oua. rewrite !decide_False by tauto. done. }
  pose proof (tok_unit_pos p id G) as Hup.
  set (p1 := set_edata p id e').
  assert (forall l, NoDup l -> eowed p1 id l + tok_unit p id * eremain p1 id <= tok_unit p id * getz D id) as V1.
  { intros l0 Hl0. etransitivity; [by apply (index_covered now p id ec e e')|by apply V]. }
  change (eremain p2 id) with (eremain p1 id).
  assert (pidx p1 id = ed_index e') as Hp1 by (unfold pidx, p1; simpl; by rewrite lookup_insert).
  assert (forall v, v <> u -> tok_unit p2 id * puacc p2 v id + tok_bal p2 v id * (pidx p2 id - puidx p2 v id) =
     tok_unit p1 id * puacc p1 v id + tok_bal p1 v id * (pidx p1 id - puidx p1 v id)) as Hot.
  { intros v Hv. rewrite Ou, Ob, Op, Oui, Oua, Hp1. rewrite !(decide_False (P := v = u /\ id = id)) by tauto. by rewrite decide_True. }
  assert (tok_unit p id * (ue_accrued ue + n) <= tok_unit p id * puacc p u id + tok_bal p u id * (ed_index e' - puidx p u id)) as Hgain.
  { rewrite Hua. unfold claimable. rewrite <- Hi.
    pose proof (fdiv_spec (tok_bal p u id * (ed_index e' - puidx p u id)) (tok_unit p id) Hup). lia. }
  destruct (decide (u ∈ l)) as [Hin|Hin].
  - assert (eowed p2 id l = eowed p1 id l - (tok_unit p1 id * puacc p1 u id + tok_bal p1 u id * (pidx p1 id - puidx p1 u id))
      + (tok_unit p2 id * puacc p2 u id + tok_bal p2 u id * (pidx p2 id - puidx p2 u id))) as ->.
    { unfold eowed. rewrite (sumz_upd (fun v => tok_unit p1 id * puacc p1 v id + tok_bal p1 v id * (pidx p1 id - puidx p1 v id)) _ l u Hl Hin); [done|exact Hot]. }
    specialize (V1 l Hl). rewrite Ou, Ob, Op, Oui, Oua, Hp1. rewrite !decide_True by done. rewrite Hui, Z.sub_diag, Z.mul_0_r.
    change (tok_unit p1 id) with (tok_unit p id) in *. change (puacc p1 u id) with (puacc p u id). change (tok_bal p1 u id) with (tok_bal p u id).
    change (puidx p1 u id) with (puidx p u id). lia.
  - assert (eowed p2 id l = eowed p1 id l) as ->.
    { apply sumz_ext. intros v Hv. apply Hot. by intros ->. }
    specialize (V1 (u :: l) ltac:(by constructor)). unfold eowed in V1 at 1. simpl in V1. fold (eowed p1 id l) in V1.
    rewrite Hp1 in V1. 
    assert (0 <= ue_accrued ue) as Hue.
    { pose proof (puacc_nonneg _ _ u id K') as Hx. rewrite Oua, decide_True in Hx by done. done. }
    assert (0 <= tok_unit p id * ue_accrued ue) by (apply Z.mul_nonneg_nonneg; lia).
    change (tok_unit p1 id) with (tok_unit p id) in *. change (puacc p1 u id) with (puacc p u id) in *. change (tok_bal p1 u id) with (tok_bal p u id) in *.
    change (puidx p1 u id) with (puidx p u id) in *. lia.
Qed.

Definition msum (D : gmap Z Z) : Z := sumz snd (map_to_list D).
Lemma msum_insert D i v : msum (<[i := v]> D) = msum D + v - getz D i.
Proof. unfold msum. rewrite sumz_map_insert. unfold getz. destruct (D !! i); simpl; lia. Qed.

(** the amount paid by a move *)
Definition paid (l : label) : Z := match l with LEmis _ _ _ n => n | _ => 0 end.

Lemma same_view_covered D p p' : same_view p p' -> ecovered D p -> ecovered D p'.
Proof.
  intros [S1 S2 S3 S4 S5 S6 S7] V id l Hl. specialize (V id l Hl). rewrite S5.
  assert (eremain p' id = eremain p id) as -> by (unfold eremain; by rewrite S1, S2).
  assert (eowed p' id l = eowed p id l) as ->; [|done].
  apply sumz_ext. intros v _. unfold puacc, puidx, pidx. by rewrite S2, S3, S5, S7.
Qed.
Lemma chg_view_covered D u id p p' : chg_view u id p p' -> pidx p id = puidx p u id -> ecovered D p -> ecovered D p'.
Proof.
  intros [S1 S2 S3 S4 S5 S6 S7] Hup V j l Hl. specialize (V j l Hl). rewrite S5.
  assert (eremain p' j = eremain p j) as -> by (unfold eremain; by rewrite S1, S2).
  assert (eowed p' j l = eowed p j l) as ->; [|done].
  apply sumz_ext. intros v _. unfold puacc, puidx, pidx. rewrite S2, S3, S5.
  fold (pidx p j) (puidx p v j). destruct (decide (v = u /\ j = id)) as [[-> ->]|Hn]; [|by rewrite S7].
  rewrite Hup, Z.sub_diag, !Z.mul_0_r. done.
Qed.
Lemma emis_upd_uptodate now p u id cl n p' : emis_ok now p -> emis_upd now p u id cl n p' -> pidx p' id = puidx p' u id.
Proof.
  intros K [(Ec & -> & ->)|(ec & e & e' & ue & Ec & Ee & -> & Hor & Hi & _ & Hui & Hua & Hcl)].
  - destruct (eo_none _ _ K _ Ec) as [H1 H2]. unfold pidx, puidx. by rewrite H1, H2.
  - destruct (upd_obs p u id e' ue) as (_ & _ & _ & _ & Op & Oui & _). rewrite Op, Oui, !decide_True by done. done.
Qed.

Lemma pmove_covered now p l p' D : good p -> emis_ok now p -> pmove now p l p' -> ecovered D p ->
  0 <= paid l /\ exists D', ecovered D' p' /\ msum D' + paid l = msum D.
Proof.
  intros G K H V. pose proof (pmove_view _ _ _ _ G H) as Vw.
  destruct l as [a|k u a dl|a n|u id cl n|u|]; cbn [paid];
    try (split; [lia|]; exists D; split; [by eapply same_view_covered|lia]).
  - destruct Vw as (id & n & p1 & M & C). apply pmove_emis_upd in M; [|done|done].
    pose proof (emis_upd_uptodate _ _ _ _ _ _ _ K M) as Hup.
    pose proof (emis_upd_covered _ _ _ _ _ _ _ D G K M V) as V1.
    split; [lia|]. exists (<[id := getz D id - n]> D). split; [by eapply chg_view_covered|]. rewrite msum_insert.
    assert (n = 0) as ->; [|lia]. destruct M as [(_ & Hn & _)|(? & ? & ? & ? & _ & _ & _ & _ & _ & _ & _ & _ & Hn)]; exact Hn.
  - apply pmove_emis_upd in H; [|done|done].
    pose proof (emis_upd_covered _ _ _ _ _ _ _ D G K H V) as V1. destruct (emis_upd_ok _ _ _ _ _ _ _ G K H) as [_ Hn].
    split; [done|]. eexists; split; [exact V1|]. rewrite msum_insert. lia.
Qed.
Lemma ptrace_covered now p ls p' D : good p -> emis_ok now p -> ptrace now p ls p' -> ecovered D p ->
  emis_ok now p' /\ 0 <= sumz paid ls /\ exists D', ecovered D' p' /\ msum D' + sumz paid ls = msum D.
Proof.
  intros G K H. revert G K D. induction H as [p|p l p1 ls p2 M T IH]; intros G K D V.
  - split; [done|]. cbn. split; [lia|]. exists D. split; [done|lia].
  - destruct (pmove_covered _ _ _ _ _ G K M V) as (Hp & D1 & V1 & Hm).
    destruct (IH (pmove_good _ _ _ _ G M) (pmove_emis_ok _ _ _ _ G K M) D1 V1) as (K2 & Hp2 & D2 & V2 & Hm2).
    split; [done|]. change (sumz paid (l :: ls)) with (paid l + sumz paid ls). split; [lia|]. exists D2. split; [done|]. lia.
Qed.

(** ** What users can claim is not touched by others *)
(** the index of [id] does not depend on the supply any more at [now] *)
Definition settled (now : Z) (p : PoolSt) (id : Z) : Prop :=
  match ps_ecfg p !! id, ps_edata p !! id with
  | Some c, Some d => ec_exp c <= ed_last d \/ now <= ed_last d \/ ec_eps c = 0
  | _, _ => True
  end.
Definition live (now : Z) (p : PoolSt) (id : Z) : Prop := tok_supply p id <> 0 \/ settled now p id.

Lemma settled_index now p id : settled now p id -> index_at now p id = pidx p id.
Proof.
  unfold settled, index_at. destruct (ps_ecfg p !! id) as [c|]; [|done]. destruct (ps_edata p !! id) as [d|] eqn:Ed; [|done].
  intros H. unfold pidx. rewrite Ed. simpl. destruct (tok_supply p id =? 0); [done|].
  assert (Z.max 0 (Z.min (ec_exp c) now - ed_last d) * ec_eps c = 0) as ->.
  { destruct H as [?|[?| ->]]; [rewrite Z.max_l by lia; lia|rewrite Z.max_l by lia; lia|lia]. }
  rewrite Z.mul_0_l, Zdiv_0_l. lia.
Qed.

Lemma emis_upd_claimable now p u id cl n p' : good p -> emis_ok now p -> emis_upd now p u id cl n p' ->
  (forall j, pidx p j <= pidx p' j) /\
  (forall j, index_at now p' j = index_at now p j) /\
  (forall v j, claimable now p' v j = if decide (v = u /\ j = id /\ cl = true) then 0 else claimable now p v j) /\
  (forall j, tok_supply p' j = tok_supply p j) /\
  (forall j, live now p j -> (j = id -> settled now p' j) /\ live now p' j) /\
  (cl = true -> n = claimable now p u id) /\
  (tok_supply p' id = 0 \/ settled now p' id).
Proof.
  intros G K H. destruct H as [(Ec & -> & ->)|(ec & e & e' & ue & Ec & Ee & -> & Hor & Hi & Hse & Hui & Hua & Hcl)].
  - assert (claimable now p u id = 0) as Hz.
    { destruct (eo_none _ _ K _ Ec) as [H1 H2]. unfold claimable, puacc, index_at, pidx, puidx. rewrite Ec, H1, H2. simpl.
      by rewrite Z.mul_0_r, Zdiv_0_l. }
    split; [intros; lia|]. split; [done|]. split.
    { intros v j. destruct (decide _) as [(-> & -> & _)|]; [done|done]. }
    split; [done|]. split; [|split; [done|right; unfold settled; by rewrite Ec]]. intros j Hj. split; [|done]. intros ->. unfold settled. by rewrite Ec.
  - destruct (upd_obs p u id e' ue) as (_ & Ou & Os & Ob & Op & Oui & Oua). set (p2 := set_uemis _ _ _ _) in *.
    assert (pidx p id = ed_index e) as Hpi by (unfold pidx; by rewrite Ee).
    pose proof (pidx_le_index_at _ now _ id K G) as Hle.
    assert (forall j, index_at now p2 j = index_at now p j) as Hix.
    { intros j. destruct (decide (j = id)) as [->|Hne].
      - destruct Hse as [Hz|Hs].
        + unfold index_at at 1. unfold p2 at 1 2; simpl. rewrite Ec, lookup_insert. rewrite Os, Hz. simpl. done.
        + rewrite settled_index; [rewrite Op, decide_True by done; done|]. unfold settled, p2; simpl. rewrite Ec, lookup_insert. lia.
      - unfold index_at. rewrite Os, Op, Ou, decide_False by done. unfold p2; simpl. rewrite lookup_insert_ne by done. done. }
    split. { intros j. rewrite Op. destruct (decide (j = id)) as [->|]; lia. }
    split; [done|]. split.
    { intros v j. unfold claimable. rewrite Hix, Ob, Ou, Oui, Oua. destruct (decide (v = u /\ j = id)) as [[-> ->]|Hn].
      - rewrite Hui, Hi, Z.sub_diag, Z.mul_0_r, Zdiv_0_l, Z.add_0_r. fold (claimable now p u id).
        destruct cl; [by rewrite decide_True|]. rewrite decide_False by (intros (_ & _ & ?); done). lia.
      - rewrite decide_False by tauto. done. }
    split; [done|]. split.
    { intros j Hj.
      assert (j = id -> settled now p2 j) as Hst.
      { intros ->. unfold settled, p2; simpl. rewrite Ec, lookup_insert.
        destruct Hse as [Hz|Hs]; [|lia].
        destruct Hj as [?|Hj]; [done|]. unfold settled in Hj. rewrite Ec, Ee in Hj. destruct Hor as [->|[Hl ?]]; [done|]. rewrite Hl. lia. }
      split; [done|]. destruct (decide (j = id)) as [->|Hne]; [right; auto|].
      destruct Hj as [Hj|Hj]; [left; by rewrite Os|right]. unfold settled, p2 in *; simpl. by rewrite lookup_insert_ne. }
    split; [intros ->; lia|]. rewrite Os. destruct Hse as [Hz|Hs]; [by left|right]. unfold settled, p2; simpl. rewrite Ec, lookup_insert. lia.
Qed.

Lemma same_view_claimable now p p' : same_view p p' ->
  (forall j, pidx p' j = pidx p j) /\ (forall v j, claimable now p' v j = claimable now p v j) /\ (forall j, live now p j -> live now p' j).
Proof.
  intros [S1 S2 S3 S4 S5 S6 S7]. 
  assert (forall j, pidx p' j = pidx p j) as Hp by (intros; unfold pidx; by rewrite S2).
  split; [done|]. split.
  - intros v j. unfold claimable, puacc, puidx, index_at. by rewrite S1, S2, S3, S5, S6, S7, Hp.
  - intros j. unfold live, settled. by rewrite S1, S2, S6.
Qed.

Lemma chg_view_claimable now u id p p' : chg_view u id p p' -> good p -> good p' -> emis_ok now p -> pidx p id = puidx p u id ->
  tok_supply p id = 0 \/ settled now p id ->
  (forall j, pidx p' j = pidx p j) /\
  (forall v j, claimable now p v j <= claimable now p' v j) /\
  (forall j, j <> id \/ settled now p j -> (forall v, claimable now p' v j = claimable now p v j) /\ (live now p j -> live now p' j)).
Proof.
  intros Hcv G G' K Hup Hzs. pose proof (chg_view_ok _ _ _ _ _ Hcv K) as K'. destruct Hcv as [S1 S2 S3 S4 S5 S6 S7].
  assert (forall j, pidx p' j = pidx p j) as Hp by (intros; unfold pidx; by rewrite S2).
  assert (forall v j, puacc p' v j = puacc p v j) as Hpa by (intros; unfold puacc; by rewrite S3).
  assert (forall v j, puidx p' v j = puidx p v j) as Hpu by (intros; unfold puidx; by rewrite S3).
  assert (forall j, settled now p j -> settled now p' j) as Hset by (intros j; unfold settled; by rewrite S1, S2).
  assert (forall v j, j <> id -> claimable now p' v j = claimable now p v j) as Hoth.
  { intros v j Hj. unfold claimable, index_at. rewrite S1, S2, S5, S6, S7, Hp, Hpa, Hpu by tauto. done. }
  assert (forall v j, settled now p j -> claimable now p' v j = claimable now p v j) as Hsc.
  { intros v j Hj. destruct (decide (j = id)) as [->|]; [|by apply Hoth]. unfold claimable.
    rewrite !settled_index by auto. rewrite Hp, Hpa, Hpu, S5. destruct (decide (v = u)) as [->|].
    - by rewrite Hup, Z.sub_diag, !Z.mul_0_r.
    - rewrite S7; [done|tauto]. }
  split; [done|]. split.
  - intros v j. destruct (decide (j = id)) as [->|]; [|rewrite Hoth by done; lia].
    destruct (decide (tok_supply p id = 0)) as [Hz|Hz].
    + (* nobody holds the token *)
      assert (tok_bal p v id = 0 \/ settled now p id) as [Hb|Hb].
      { destruct (ps_ecfg p !! id) as [c|] eqn:Ec; [|right; unfold settled; by rewrite Ec]. left.
        destruct (eo_eps _ _ K _ _ Ec) as (_ & Ha & _). pose proof (tok_list p id [v] G Ha (NoDup_singleton v)) as Hl. simpl in Hl.
        pose proof (tok_bal_nonneg p v id G). lia. }
      * unfold claimable at 1. rewrite Hb, Z.mul_0_l, Zdiv_0_l, Z.add_0_r, <- Hpa. by apply (claimable_nonneg now now).
      * rewrite Hsc by done. lia.
    + destruct Hzs as [?|Hs]; [done|]. rewrite Hsc by done. lia.
  - intros j Hj. assert (forall v, claimable now p' v j = claimable now p v j) as Hc.
    { intros v. destruct Hj; [by apply Hoth|by apply Hsc]. }
    split; [done|]. destruct Hj as [Hj|Hj]; [|intros _; right; auto].
    unfold live. rewrite S6 by done. intros [?|?]; [by left|right; auto].
Qed.

(** a claim of token [j] by [v] *)
Definition claims (v : Addr) (j : Z) (l : label) : bool :=
  match l with LEmis u id true _ => bool_decide (u = v /\ id = j) | _ => false end.

Lemma pmove_claimable now p l p' : good p -> emis_ok now p -> pmove now p l p' ->
  (forall j, pidx p j <= pidx p' j) /\
  (forall v j, claims v j l = false -> claimable now p v j <= claimable now p' v j /\ (live now p j -> claimable now p' v j = claimable now p v j)) /\
  (forall j, live now p j -> live now p' j) /\
  (forall v j, claims v j l = true -> paid l = claimable now p v j /\ claimable now p' v j = 0).
Proof.
  intros G K H. pose proof (pmove_view _ _ _ _ G H) as V. pose proof (pmove_good _ _ _ _ G H) as G'.
  assert (same_view p p' -> (forall v j, claims v j l = false) ->
    (forall j, pidx p j <= pidx p' j) /\
    (forall v j, claims v j l = false -> claimable now p v j <= claimable now p' v j /\ (live now p j -> claimable now p' v j = claimable now p v j)) /\
    (forall j, live now p j -> live now p' j) /\
    (forall v j, claims v j l = true -> paid l = claimable now p v j /\ claimable now p' v j = 0)) as Hsame.
  { intros S Hf. destruct (same_view_claimable now _ _ S) as (H1 & H2 & H3). split; [intros; rewrite H1; lia|].
    split; [intros v j _; rewrite H2; split; [lia|done]|]. split; [done|]. intros v j Hx. by rewrite Hf in Hx. }
  destruct l as [a|k u a dl|a n|u id cl n|u|]; try (by apply Hsame).
  - clear Hsame. destruct V as (id & n & p1 & M & C). pose proof (pmove_good _ _ _ _ G M) as G1.
    pose proof (pmove_emis_ok _ _ _ _ G K M) as K1. apply pmove_emis_upd in M; [|done|done].
    pose proof (emis_upd_uptodate _ _ _ _ _ _ _ K M) as Hup.
    destruct (emis_upd_claimable _ _ _ _ _ _ _ G K M) as (U1 & U2 & U3 & U4 & U5 & _ & U6).
    destruct (chg_view_claimable now _ _ _ _ C G1 G' K1 Hup U6) as (C1 & C2 & C3).
    split; [intros j; rewrite C1; apply U1|].
    assert (forall v j, claimable now p1 v j = claimable now p v j) as Hc1.
    { intros v j. rewrite U3. rewrite decide_False; [done|]. intros (_ & _ & ?). done. }
    assert (forall j, live now p j -> j <> id \/ settled now p1 j) as Hl.
    { intros j Hj. destruct (decide (j = id)) as [->|]; [right; by apply U5|by left]. }
    split; [|split; [|done]].
    + intros v j _. split; [rewrite <- Hc1; apply C2|]. intros Hj. rewrite <- Hc1. by apply C3, Hl.
    + intros j Hj. apply C3; [by apply Hl|]. by apply U5.
  - clear Hsame V. apply pmove_emis_upd in H; [|done|done].
    destruct (emis_upd_claimable _ _ _ _ _ _ _ G K H) as (U1 & U2 & U3 & U4 & U5 & U7 & U6).
    split; [done|]. split; [|split; [intros j Hj; by apply U5|]].
    + intros v j Hcl. rewrite U3. rewrite decide_False; [split; [lia|done]|]. intros (-> & -> & ->). simpl in Hcl.
      by rewrite bool_decide_eq_true_2 in Hcl.
    + intros v j Hcl. simpl in Hcl. destruct cl; [|done]. apply bool_decide_eq_true in Hcl as [-> ->]. simpl.
      rewrite U3, decide_True by done. split; [by apply U7|done].
Qed.

Lemma ptrace_claimable now p ls p' : good p -> emis_ok now p -> ptrace now p ls p' ->
  (forall j, pidx p j <= pidx p' j) /\
  (forall v j, forallb (fun l => negb (claims v j l)) ls = true ->
     claimable now p v j <= claimable now p' v j /\ (live now p j -> claimable now p' v j = claimable now p v j)) /\
  (forall j, live now p j -> live now p' j).
Proof.
  intros G K H. revert G K. induction H as [p|p l p1 ls p2 M T IH]; intros G K.
  - split; [intros; lia|]. split; [intros; split; [lia|done]|done].
  - destruct (pmove_claimable _ _ _ _ G K M) as (A1 & A2 & A3 & _).
    destruct (IH (pmove_good _ _ _ _ G M) (pmove_emis_ok _ _ _ _ G K M)) as (B1 & B2 & B3).
    split; [intros j; etransitivity; [apply A1|apply B1]|]. split; [|auto].
    intros v j Hf. simpl in Hf. apply andb_true_iff in Hf as [Hf1 Hf2]. apply negb_true_iff in Hf1.
    destruct (A2 _ _ Hf1) as [L1 E1], (B2 _ _ Hf2) as [L2 E2]. split; [lia|]. intros Hl. rewrite E2 by auto. auto.
Qed.
