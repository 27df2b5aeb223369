(** * Liquidation auctions can be filled: C65 *)
From Verif Require Import Base Types Token Emitter Factory Backstop PoolReserve PoolUser PoolHealth
  PoolAuction PoolSubmit PoolEmis PoolAdmin World Facts XMove Spec PoolFrame PoolCfg PoolAccrue PoolTrace PoolInv AuctionFacts
  PoolSim PoolReq PoolHF PoolOps PoolLiq PoolReach PoolTx PoolEmisInv FrameFacts PropsAdmin BackMoves PropsBackstop PropsBackstop5 PropsPool1 PropsPool2 PropsPool3
  PropsPool4 PropsPool5 PropsPool7 PropsPool9 PropsPool10 PoolLive PropsPool13 PropsPool15 PropsPool16 PropsPool20 PropsPool21.

(** ** Specification *)
(** the amounts of [m], by asset, added to those of [b], by reserve index *)
Definition credited (w : World) (a : Addr) (m : gmap Addr Z) (b : gmap Z Z) : gmap Z Z :=
  foldl (fun b e => <[index_of w a (fst e) := amount_at b (index_of w a (fst e)) + snd e]> b) b (entries m).
(** positions [pos] after taking over the lot and the debts of [f] *)
Definition taking (w : World) (a : Addr) (f : Auction) (pos : Positions) : Positions :=
  pos <| po_coll := credited w a (au_lot f) (po_coll pos) |> <| po_liab := credited w a (au_bid f) (po_liab pos) |>.

(** ** Storage and cache while positions are moved *)
Section fill.
Context (w : World) (a : Addr).
Hypothesis (Hr : reachable w) (G : good (pool w a)).
Let p := pool w a.
Let now := w_now w.
Let K : emis_ok now p := reachable_emis w a Hr.

Definition upd (f : Addr -> Z) (r : Addr) (v : Z) : Addr -> Z := fun s => if decide (s = r) then v else f s.
(** the emission index of [id] is up to date in [q] *)
Definition current (q : PoolSt) (id : Z) : Prop :=
  forall cfg, ps_ecfg p !! id = Some cfg -> exists e, ps_edata q !! id = Some e /\ ed_index e = index_at now p id /\
    (ec_exp cfg <= ed_last e \/ now = ed_last e \/ ec_eps cfg = 0).
(** ... and the emissions of [x] were settled at it *)
Definition settled (q : PoolSt) (x : Addr) (id : Z) : Prop :=
  forall cfg, ps_ecfg p !! id = Some cfg -> exists ue, ps_uemis q !! (x, id) = Some ue /\ ue_index ue = index_at now p id.
Definition shifted (r : Reserve) (b d : Z) : Reserve :=
  r <| r_data := (r_data r) <| rd_b_supply := rd_b_supply (r_data r) + b |> <| rd_d_supply := rd_d_supply (r_data r) + d |> |>.
(** storage [q] and cache [ch] when the supplies of the reserves have changed by [db] and [dd]
    and the emissions of the users and reserves in [Tb] (bTokens) and [Td] (dTokens) were updated *)
Record mid (db dd : Addr -> Z) (Tb Td : Addr -> Addr -> Prop) (q : PoolSt) (ch : Cache) : Prop := {
  md_p : ps_ecfg q = ps_ecfg p /\ ps_rcfg q = ps_rcfg p /\ ps_rdata q = ps_rdata p /\ ps_list q = ps_list p /\ ps_pos q = ps_pos p;
  md_c : ch_cfg ch = ps_config p /\ ch_dec ch = None /\ ch_price ch = ∅;
  md_res : forall r, match ch_res ch !! r with
    | Some r2 => exists res, load_res now (ps_config p) p r = Ok res /\ r2 = shifted res (db r) (dd r)
    | None => db r = 0 /\ dd r = 0 end;
  md_store : forall r, r ∈ ch_store ch -> is_Some (ch_res ch !! r);
  md_ub : forall x r cfg, ps_rcfg p !! r = Some cfg -> ~ Tb x r -> ps_uemis q !! (x, rc_index cfg * 2 + 1) = ps_uemis p !! (x, rc_index cfg * 2 + 1);
  md_ud : forall x r cfg, ps_rcfg p !! r = Some cfg -> ~ Td x r -> ps_uemis q !! (x, rc_index cfg * 2) = ps_uemis p !! (x, rc_index cfg * 2);
  md_eb : forall r cfg, ps_rcfg p !! r = Some cfg ->
    (db r = 0 /\ ps_edata q !! (rc_index cfg * 2 + 1) = ps_edata p !! (rc_index cfg * 2 + 1)) \/ current q (rc_index cfg * 2 + 1);
  md_ed : forall r cfg, ps_rcfg p !! r = Some cfg ->
    (dd r = 0 /\ ps_edata q !! (rc_index cfg * 2) = ps_edata p !! (rc_index cfg * 2)) \/ current q (rc_index cfg * 2);
  md_td : forall x r cfg, ps_rcfg p !! r = Some cfg -> Td x r -> current q (rc_index cfg * 2) /\ settled q x (rc_index cfg * 2)
}.

Lemma emis_once q x id supply :
  ps_ecfg q = ps_ecfg p -> (supply = tok_supply p id /\ ps_edata q !! id = ps_edata p !! id) \/ current q id ->
  ps_uemis q !! (x, id) = ps_uemis p !! (x, id) -> emis_fits now p x id -> tok_supply p id <> 0 -> 0 <= supply ->
  exists n q', p_emissions now q id supply (tok_unit p id) x (tok_bal p x id) false = Ok (n, q') /\ updated now p q x id q' /\ current q' id /\ settled q' x id.
Proof.
  intros Hc Hor Hu Hf Hs H0.
  assert (exists n q', p_emissions now q id supply (tok_unit p id) x (tok_bal p x id) false = Ok (n, q') /\ updated now p q x id q') as (n & q' & E & U).
  { destruct Hor as [[-> He]|Hcur].
    - apply emissions_total; try done. split; [by rewrite Hc|done].
    - apply (emissions_again now p q (x + 1) x); try done; [|lia]. rewrite Hc. destruct (ps_ecfg p !! id) as [cfg|] eqn:Ec; [right|by left].
      destruct (Hcur cfg Ec) as (e & E1 & E2 & E3). exists cfg, e. done. }
  exists n, q'. split; [done|]. split; [done|]. split.
  { intros cfg Ec. destruct U as [[U _]|(cf & e & ue & U1 & -> & U3 & U4)]; [congruence|].
    exists e. simpl. rewrite lookup_insert. split; [done|]. split; [done|]. assert (cf = cfg) as -> by congruence. tauto. }
  intros cfg Ec. unfold p_emissions in E. rewrite Hc, Ec in E. apply bind_ok in E as ([e q1] & E1 & E).
  destruct (eo_eps _ _ K _ _ Ec) as (Heps & _ & _).
  pose proof (update_edata_spec _ _ _ _ _ _ _ _ E1 H0 Heps) as (d0 & _ & -> & _).
  apply update_user_emis_spec in E as (_ & _ & Hq); [|apply tok_unit_pos, G].
  destruct U as [[U _]|(cf & e' & ue & U1 & -> & U3 & U4)]; [congruence|].
  assert (cf = cfg) as -> by congruence. unfold set_uemis, set_edata in Hq. simpl in Hq.
  pose proof (f_equal (fun q => ps_uemis q !! (x, id)) Hq) as H1. pose proof (f_equal (fun q => ps_edata q !! id) Hq) as H2. unfold set in H1, H2. simpl in H1, H2. rewrite !lookup_insert in H1. rewrite !lookup_insert in H2.
  exists ue. simpl. rewrite lookup_insert. split; [done|]. injection H1 as ->. injection H2 as <-. simpl. apply U3.
Qed.

Lemma idx_inj r s c1 c2 : ps_rcfg p !! r = Some c1 -> ps_rcfg p !! s = Some c2 -> rc_index c1 = rc_index c2 -> r = s.
Proof.
  intros H1 H2 Hi. destruct (good_index_bound p r c1 (gd_cfg p G) H1) as [B1 L1]. destruct (good_index_bound p s c2 (gd_cfg p G) H2) as [B2 L2].
  rewrite Hi in L1. congruence.
Qed.
Lemma current_frame q q' x id j : updated now p q x id q' -> current q j -> current q' id -> current q' j.
Proof.
  intros U C1 C2. destruct (decide (j = id)) as [->|Hj]; [done|]. intros cfg Ec. destruct (C1 cfg Ec) as (e & E1 & E2).
  exists e. split; [|done]. destruct (updated_frame w a now q x id q' U) as (_ & _ & _ & V & _). by rewrite V.
Qed.

Lemma settled_frame q q' x id y j : updated now p q x id q' -> settled q y j -> settled q' x id -> settled q' y j.
Proof.
  intros U C1 C2. destruct (decide ((y, j) = (x, id))) as [[= -> ->]|Hj]; [done|]. intros cfg Ec. destruct (C1 cfg Ec) as (e & E1 & E2).
  exists e. split; [|done]. destruct (updated_frame w a now q x id q' U) as (_ & _ & _ & _ & V). by rewrite V.
Qed.

Definition with_b (T : Addr -> Addr -> Prop) (x r : Addr) : Addr -> Addr -> Prop := fun y s => T y s \/ (y = x /\ s = r).

Lemma load_mid db dd Tb Td q ch r cfg d : mid db dd Tb Td q ch -> accruable w a r -> ps_rcfg p !! r = Some cfg -> reserve w a r = Some d ->
  exists res ch0, load_res now (ps_config p) p r = Ok res /\ load_reserve now q ch r true = Ok (shifted res (db r) (dd r), ch0) /\
    r_asset res = r /\ r_index res = rc_index cfg /\ r_scalar res = 10 ^ rc_decimals cfg /\ rd_b_supply (r_data res) = rd_b_supply d /\ rd_d_supply (r_data res) = rd_d_supply d /\
    ch_res ch0 = ch_res ch /\ ch_cfg ch0 = ch_cfg ch /\ ch_dec ch0 = ch_dec ch /\ ch_price ch0 = ch_price ch /\ (forall s, s ∈ ch_store ch0 -> s = r \/ s ∈ ch_store ch).
Proof.
  intros M Hac Hc Hd. destruct (loaded w a r cfg d Hr Hac Hc Hd) as (res & Hl & Hra & Hri & Hrs & _ & Hbs & Hds & _).
  destruct M as [(P1 & P2 & P3 & P4 & P5) (C1 & C2 & C3) Mr _ _ _ _ _ _].
  unfold load_reserve. set (ch0 := if true && _ then _ else _).
  assert (ch_res ch0 = ch_res ch /\ ch_cfg ch0 = ch_cfg ch /\ ch_dec ch0 = ch_dec ch /\ ch_price ch0 = ch_price ch /\ forall x, x ∈ ch_store ch0 -> x = r \/ x ∈ ch_store ch) as (D1 & D2 & D3 & D4 & D5).
  { unfold ch0. destruct (true && _); [|repeat (split; [done|]); by auto]. repeat (split; [done|]). simpl. intros x Hx. apply elem_of_app in Hx as [?|Hx]; [auto|]. apply elem_of_list_singleton in Hx. auto. }
  exists res, ch0. split; [done|]. split; [|repeat (split; [done|]); exact D5]. rewrite D1. specialize (Mr r). destruct (ch_res ch !! r) as [r2|].
  - destruct Mr as (res' & E & ->). assert (res' = res) by (fold p now in Hl; congruence). by subst.
  - destruct Mr as [-> ->]. rewrite D2, C1. unfold load_res. rewrite P2, P3. fold (load_res now (ps_config p) p r). fold p now in Hl. rewrite Hl. cbn [bind]. f_equal. f_equal.
    unfold shifted. rewrite !Z.add_0_r. by destruct res as [? ? ? ? ? ? []].
Qed.

Lemma core_b db dd Tb Td q ch x r cfg d :
  mid db dd Tb Td q ch -> accruable w a r -> ps_rcfg p !! r = Some cfg -> reserve w a r = Some d ->
  ~ Tb x r -> emis_fits now p x (rc_index cfg * 2 + 1) -> 0 < rd_b_supply d -> 0 <= rd_b_supply d + db r ->
  exists r2 ch0 q', load_reserve now q ch r true = Ok (r2, ch0) /\ r_index r2 = rc_index cfg /\ rd_b_supply (r_data r2) = rd_b_supply d + db r /\
    upd_b_emis now q x r2 (tok_bal p x (rc_index cfg * 2 + 1)) = Ok q' /\
    forall m, mid (upd db r (db r + m)) dd (with_b Tb x r) Td q' (cache_reserve ch0 (set_b_supply r2 (rd_b_supply d + db r + m))).
Proof.
  intros M Hac Hc Hd HT Hf Hs Hs2. destruct (load_mid _ _ _ _ _ _ r cfg d M Hac Hc Hd) as (res & ch0 & Hl & El & Hra & Hri & Hrs & Hbs & Hds & D1 & D2 & D3 & D4 & D5).
  destruct (tok_of_tid p KColl r cfg d x G Hc Hd) as (_ & Ha & Hb & Hsu & Hun). cbn [tid sup_k] in *.
  destruct M as [(P1 & P2 & P3 & P4 & P5) (C1 & C2 & C3) Mr Ms Mub Mud Meb Med Mtd].
  destruct (emis_once q x (rc_index cfg * 2 + 1) (rd_b_supply d + db r) P1) as (n & q' & E & U & Cu & Se); [..|done| |done|].
  { destruct (Meb r cfg Hc) as [[Z1 Z2]|?]; [left|by right]. rewrite Z1, Hsu. split; [lia|done]. }
  { by apply (Mub x r cfg Hc). }
  { rewrite Hsu. lia. }
  destruct (updated_frame w a now q x _ q' U) as (V1 & V2 & V3 & V4 & V5).
  assert (ps_list q' = ps_list q /\ ps_pos q' = ps_pos q) as [V6 V7]. { destruct U as [[_ ->]|(? & ? & ? & _ & -> & _)]; done. }
  exists (shifted res (db r) (dd r)), ch0, q'. split; [done|]. split; [done|]. split; [unfold shifted; simpl; lia|]. split.
  { unfold upd_b_emis, shifted. simpl. rewrite Hri, Hbs, Hrs, <- Hun. fold p now in E |- *. rewrite E. done. }
  intros m. constructor.
  - rewrite V1, V2, V3, V6, V7. done.
  - simpl. rewrite D2, D3, D4. done.
  - intros s. unfold cache_reserve, upd. simpl. rewrite Hra. destruct (decide (s = r)) as [->|Hne].
    + rewrite lookup_insert. exists res. split; [done|]. clear - Hbs. destruct res as [? ? ? ? ? ? []]. unfold shifted, set_b_supply, set. simpl in *. subst. do 2 f_equal; lia.
    + rewrite lookup_insert_ne by done. rewrite D1. apply Mr.
  - intros s. simpl. rewrite Hra. intros Hx. destruct (decide (s = r)) as [->|Hne]; [rewrite lookup_insert; eauto|]. rewrite lookup_insert_ne, D1 by done. apply Ms. by destruct (D5 s Hx).
  - intros y s c Hsc Hn. rewrite V5; [apply (Mub y s c Hsc); intros ?; apply Hn; by left|]. intros [= -> Hi]. apply Hn. right. split; [done|]. apply (idx_inj _ _ _ _ Hsc Hc). lia.
  - intros y s c Hsc Hn. rewrite V5; [by apply (Mud y s c)|]. intros [= -> Hi]. lia.
  - intros s c Hsc. destruct (decide (s = r)) as [->|Hne].
    + right. assert (c = cfg) as -> by congruence. done.
    + unfold upd. rewrite decide_False by done. destruct (Meb s c Hsc) as [[Z1 Z2]|Z1]; [left|right; by eapply current_frame].
      split; [done|]. rewrite V4; [done|]. intros Hi. apply Hne. apply (idx_inj _ _ _ _ Hsc Hc). lia.
  - intros s c Hsc. destruct (Med s c Hsc) as [[Z1 Z2]|Z1]; [left|right; by eapply current_frame]. split; [done|]. rewrite V4; [done|]. lia.
  - intros y s c Hsc Hy. destruct (Mtd y s c Hsc Hy) as [Z1 Z2]. split; [by eapply current_frame|by eapply settled_frame].
Qed.
Lemma core_d db dd Tb Td q ch x r cfg d :
  mid db dd Tb Td q ch -> accruable w a r -> ps_rcfg p !! r = Some cfg -> reserve w a r = Some d ->
  ~ Td x r -> emis_fits now p x (rc_index cfg * 2) -> 0 < rd_d_supply d -> 0 <= rd_d_supply d + dd r ->
  exists r2 ch0 q', load_reserve now q ch r true = Ok (r2, ch0) /\ r_index r2 = rc_index cfg /\ rd_d_supply (r_data r2) = rd_d_supply d + dd r /\
    upd_d_emis now q x r2 (tok_bal p x (rc_index cfg * 2)) = Ok q' /\
    forall m, mid db (upd dd r (dd r + m)) Tb (with_b Td x r) q' (cache_reserve ch0 (set_d_supply r2 (rd_d_supply d + dd r + m))).
Proof.
  intros M Hac Hc Hd HT Hf Hs Hs2. destruct (load_mid _ _ _ _ _ _ r cfg d M Hac Hc Hd) as (res & ch0 & Hl & El & Hra & Hri & Hrs & Hbs & Hds & D1 & D2 & D3 & D4 & D5).
  destruct (tok_of_tid p KLiab r cfg d x G Hc Hd) as (_ & Ha & Hb & Hsu & Hun). cbn [tid sup_k] in *.
  destruct M as [(P1 & P2 & P3 & P4 & P5) (C1 & C2 & C3) Mr Ms Mub Mud Meb Med Mtd].
  destruct (emis_once q x (rc_index cfg * 2) (rd_d_supply d + dd r) P1) as (n & q' & E & U & Cu & Se); [..|done| |done|].
  { destruct (Med r cfg Hc) as [[Z1 Z2]|?]; [left|by right]. rewrite Z1, Hsu. split; [lia|done]. }
  { by apply (Mud x r cfg Hc). }
  { rewrite Hsu. lia. }
  destruct (updated_frame w a now q x _ q' U) as (V1 & V2 & V3 & V4 & V5).
  assert (ps_list q' = ps_list q /\ ps_pos q' = ps_pos q) as [V6 V7]. { destruct U as [[_ ->]|(? & ? & ? & _ & -> & _)]; done. }
  exists (shifted res (db r) (dd r)), ch0, q'. split; [done|]. split; [done|]. split; [unfold shifted; simpl; lia|]. split.
  { unfold upd_d_emis, shifted. simpl. rewrite Hri, Hds, Hrs, <- Hun. fold p now in E |- *. rewrite E. done. }
  intros m. constructor.
  - rewrite V1, V2, V3, V6, V7. done.
  - simpl. rewrite D2, D3, D4. done.
  - intros s. unfold cache_reserve, upd. simpl. rewrite Hra. destruct (decide (s = r)) as [->|Hne].
    + rewrite lookup_insert. exists res. split; [done|]. clear - Hds. destruct res as [? ? ? ? ? ? []]. unfold shifted, set_d_supply, set. simpl in *. subst. do 2 f_equal; lia.
    + rewrite lookup_insert_ne by done. rewrite D1. apply Mr.
  - intros s. simpl. rewrite Hra. intros Hx. destruct (decide (s = r)) as [->|Hne]; [rewrite lookup_insert; eauto|]. rewrite lookup_insert_ne, D1 by done. apply Ms. by destruct (D5 s Hx).
  - intros y s c Hsc Hn. rewrite V5; [by apply (Mub y s c)|]. intros [= -> Hi]. lia.
  - intros y s c Hsc Hn. rewrite V5; [apply (Mud y s c Hsc); intros ?; apply Hn; by left|]. intros [= -> Hi]. apply Hn. right. split; [done|]. apply (idx_inj _ _ _ _ Hsc Hc). lia.
  - intros s c Hsc. destruct (Meb s c Hsc) as [[Z1 Z2]|Z1]; [left|right; by eapply current_frame]. split; [done|]. rewrite V4; [done|]. lia.
  - intros s c Hsc. destruct (decide (s = r)) as [->|Hne].
    + right. assert (c = cfg) as -> by congruence. done.
    + unfold upd. rewrite decide_False by done. destruct (Med s c Hsc) as [[Z1 Z2]|Z1]; [left|right; by eapply current_frame].
      split; [done|]. rewrite V4; [done|]. intros Hi. apply Hne. apply (idx_inj _ _ _ _ Hsc Hc). lia.
  - intros y s c Hsc [Hy|[-> ->]].
    + destruct (Mtd y s c Hsc Hy) as [Z1 Z2]. split; [by eapply current_frame|by eapply settled_frame].
    + assert (c = cfg) as -> by congruence. done.
Qed.
(** a second time: the emissions are up to date *)
Lemma core_d2 db dd Tb Td q ch x r cfg d :
  mid db dd Tb Td q ch -> accruable w a r -> ps_rcfg p !! r = Some cfg -> reserve w a r = Some d -> Td x r ->
  exists r2 ch0, load_reserve now q ch r true = Ok (r2, ch0) /\ r_index r2 = rc_index cfg /\ rd_d_supply (r_data r2) = rd_d_supply d + dd r /\
    (forall b, upd_d_emis now q x r2 b = Ok q) /\
    forall m, mid db (upd dd r (dd r + m)) Tb Td q (cache_reserve ch0 (set_d_supply r2 (rd_d_supply d + dd r + m))).
Proof.
  intros M Hac Hc Hd HT. destruct (load_mid _ _ _ _ _ _ r cfg d M Hac Hc Hd) as (res & ch0 & Hl & El & Hra & Hri & Hrs & Hbs & Hds & D1 & D2 & D3 & D4 & D5).
  destruct M as [(P1 & P2 & P3 & P4 & P5) (C1 & C2 & C3) Mr Ms Mub Mud Meb Med Mtd].
  destruct (Mtd x r cfg Hc HT) as [Z1 Z2].
  exists (shifted res (db r) (dd r)), ch0. split; [done|]. split; [done|]. split; [unfold shifted; simpl; lia|]. split.
  { intros b. unfold upd_d_emis, shifted, p_emissions. simpl. rewrite Hri, P1. destruct (ps_ecfg p !! (rc_index cfg * 2)) as [ec|] eqn:Ec; [|done].
    destruct (Z1 ec Ec) as (e & E1 & E2 & E3). destruct (Z2 ec Ec) as (ue & E4 & E5). unfold update_edata. rewrite E1. cbn [unwrap bind].
    assert (forall t, ((ec_exp ec <=? ed_last e) || (now =? ed_last e) || (ec_eps ec =? 0) || t) = true) as Hnoop.
    { intros t. rewrite !orb_true_iff, Z.leb_le, !Z.eqb_eq. tauto. }
    rewrite Hnoop. cbn [bind]. unfold update_user_emis. rewrite E4, E5, E2, Z.eqb_refl. done. }
  intros m. constructor; try done.
  - simpl. rewrite D2, D3, D4. done.
  - intros s. unfold cache_reserve, upd. simpl. rewrite Hra. destruct (decide (s = r)) as [->|Hne].
    + rewrite lookup_insert. exists res. split; [done|]. clear - Hds. destruct res as [? ? ? ? ? ? []]. unfold shifted, set_d_supply, set. simpl in *. subst. do 2 f_equal; lia.
    + rewrite lookup_insert_ne by done. rewrite D1. apply Mr.
  - intros s. simpl. rewrite Hra. intros Hx. destruct (decide (s = r)) as [->|Hne]; [rewrite lookup_insert; eauto|]. rewrite lookup_insert_ne, D1 by done. apply Ms. by destruct (D5 s Hx).
  - intros s c Hsc. destruct (decide (s = r)) as [->|Hne].
    + right. assert (c = cfg) as -> by congruence. done.
    + unfold upd. rewrite decide_False by done. by apply Med.
Qed.
Lemma mid_ext db dd dd' Tb Td Td' q ch : mid db dd Tb Td q ch -> (forall r, dd r = dd' r) -> (forall x r, Td x r <-> Td' x r) -> mid db dd' Tb Td' q ch.
Proof.
  intros [P C Mr Ms Mub Mud Meb Med Mtd] H1 H2. constructor; try done.
  - intros r. specialize (Mr r). destruct (ch_res ch !! r); by rewrite <- H1.
  - intros x r cfg Hc Hn. apply (Mud x r cfg Hc). by rewrite H2.
  - intros r cfg Hc. rewrite <- H1. by apply Med.
  - intros x r cfg Hc Hx. apply (Mtd x r cfg Hc). by apply H2.
Qed.

(** *** The four loops *)
Definition shift (k : Z) (l : list (Addr * Z)) (db : Addr -> Z) : Addr -> Z := foldl (fun db e => upd db (fst e) (db (fst e) + k * snd e)) db l.
Lemma shift_notin k l : forall db r, r ∉ l.*1 -> shift k l db r = db r.
Proof.
  induction l as [|e l IH]; intros db r H; [done|]. apply not_elem_of_cons in H as [H1 H2]. simpl. rewrite IH by done. unfold upd. by rewrite decide_False.
Qed.
Lemma shift_in k l : forall db r n, NoDup l.*1 -> (r, n) ∈ l -> shift k l db r = db r + k * n.
Proof.
  induction l as [|e l IH]; intros db r n Hnd H; [by apply elem_of_nil in H|]. apply NoDup_cons in Hnd as [H1 H2]. simpl. apply elem_of_cons in H as [<-|H].
  - rewrite shift_notin by done. unfold upd. simpl. by rewrite decide_True.
  - rewrite (IH _ r n) by done. unfold upd. rewrite decide_False; [done|]. intros ->. apply H1. apply elem_of_list_fmap. by exists (fst e, n).
Qed.
Lemma not_in_rest {B} (r r' : Addr) (n n' : B) (l : list (Addr * B)) : r ∉ l.*1 -> (r', n') ∈ l -> r' <> r.
Proof. intros H1 H2 ->. apply H1. apply elem_of_list_fmap. by exists (r, n'). Qed.

(** what a loop over [l] for user [x] needs of reserve [r] *)
Record rdy (x : Addr) (b : bool) (r : Addr) (n : Z) : Prop := {
  ry_ac : accruable w a r;
  ry_n : 0 < n;
  ry_fits : emis_fits now p x (index_of w a r * 2 + (if b then 1 else 0));
  ry_sup : forall d, reserve w a r = Some d -> if b then n <= rd_b_supply d <= i128_max else n <= rd_d_supply d <= i128_max
}.
Lemma idx_of r cfg : ps_rcfg p !! r = Some cfg -> index_of w a r = rc_index cfg.
Proof. intros H. unfold index_of. fold p. by rewrite H. Qed.

Definition debited (b : gmap Z Z) (l : list (Addr * Z)) : gmap Z Z :=
  foldl (fun b e => put b (index_of w a (fst e)) (amount_at b (index_of w a (fst e)) - snd e)) b l.
Lemma remove_coll_total x l : forall db dd Tb Td q ch pos,
  mid db dd Tb Td q ch -> NoDup l.*1 ->
  (forall r n, (r, n) ∈ l -> rdy x true r n /\ ~ Tb x r /\ db r = 0 /\ n <= amount_at (po_coll pos) (index_of w a r) /\ 0 <= amount_at (po_sup pos) (index_of w a r) /\
     amount_at (po_coll pos) (index_of w a r) + amount_at (po_sup pos) (index_of w a r) = tok_bal p x (index_of w a r * 2 + 1)) ->
  exists q' ch' pos' Tb', foldM (pos_step remove_collateral now x) (q, ch, pos) l = Ok (q', ch', pos') /\
    po_sup pos' = po_sup pos /\ po_liab pos' = po_liab pos /\ po_coll pos' = debited (po_coll pos) l /\
    mid (shift (-1) l db) dd Tb' Td q' ch' /\ (forall y s, Tb' y s -> Tb y s \/ y = x).
Proof.
  induction l as [|[r n] l IH]; intros db dd Tb Td q ch pos M Hnd Hl.
  { exists q, ch, pos, Tb. split; [done|]. split; [done|]. split; [done|]. split; [done|]. split; [done|]. by left. }
  apply NoDup_cons in Hnd as [Hni Hnd]. cbn [fst] in Hni. destruct (Hl r n ltac:(left)) as ([Hac Hn Hf Hs] & HT & Hdb & Hle & Hp0 & Hbal).
  pose proof Hac as (cfg & d & d' & Hc & Hd & _). pose proof (idx_of r cfg Hc) as Hix0. rewrite Hix0 in *. specialize (Hs d Hd). cbn iota in Hs, Hf.
  destruct (core_b _ _ _ _ _ _ x r cfg d M Hac Hc Hd HT Hf ltac:(lia) ltac:(lia)) as (r2 & ch0 & q1 & E1 & E2 & E3 & E4 & M1).
  destruct (tok_of_tid p KColl r cfg d x G Hc Hd) as (_ & Ha & _ & Hsu & _). cbn [tid sup_k] in *.
  pose proof (tok_list p (rc_index cfg * 2 + 1) [x] G ltac:(rewrite Ha; eauto) ltac:(apply NoDup_singleton)) as Hb. rewrite sumz_cons, sumz_nil, Hsu in Hb.
  pose proof (tok_bal_nonneg p x (rc_index cfg * 2 + 1) G) as Hb0.
  cbn [foldM]. unfold pos_step at 1. cbn [fst snd]. rewrite E1. cbn [bind]. unfold remove_collateral. rewrite (proj2 (Z.eqb_neq n 0)) by lia. cbn [negb].
  rewrite E2. unfold get_total, get_coll, get_sup, getz. unfold amount_at in Hbal, Hle, Hp0. rewrite Hbal, i128_ok_nonneg by lia. cbn [bind]. rewrite E4. cbn [bind].
  rewrite i128_ok_nonneg by lia. cbn [bind]. unfold p_nonneg. rewrite (proj2 (Z.ltb_ge _ 0)) by lia. cbn [bind]. rewrite E3, Hdb.
  rewrite i128_ok_nonneg by lia. cbn [bind].
  specialize (M1 (-1 * n)). rewrite Hdb in M1. replace (rd_b_supply d + 0 + -1 * n) with (rd_b_supply d + 0 - n) in M1 by lia.
  match goal with |- context [foldM _ (_, _, ?P) l] => set (pos1 := P) end.
  destruct (IH _ _ _ _ _ _ pos1 M1 Hnd) as (q' & ch' & pos' & Tb' & E & P1 & P2 & P3 & M2 & T2).
  { intros s m Hm. pose proof (not_in_rest r s n m l Hni Hm) as Hsr. destruct (Hl s m ltac:(by right)) as (R & X1 & X2 & X3 & X4 & X5). split; [done|].
    split. { intros [?|[_ ?]]; done. } split. { unfold upd. by rewrite decide_False. }
    destruct R as [(cfg2 & ? & ? & Hc2 & _) _ _ _]. rewrite (idx_of s cfg2 Hc2) in *.
    assert (rc_index cfg <> rc_index cfg2) as Hix. { intros ?. apply Hsr. by eapply idx_inj. }
    assert (amount_at (po_coll pos1) (rc_index cfg2) = amount_at (po_coll pos) (rc_index cfg2)) as ->.
    { match goal with |- amount_at ?M _ = _ => transitivity (getz M (rc_index cfg2)); [done|] end. unfold pos1. simpl. rewrite getz_put, decide_False by done. done. }
    done. }
  exists q', ch', pos', Tb'. split; [exact E|]. split; [done|]. split; [done|]. split. { rewrite P3. unfold debited. cbn [foldl fst snd]. rewrite Hix0. done. } split. { cbn [shift foldl fst snd]. rewrite Hdb. exact M2. }
  intros y s Hy. destruct (T2 y s Hy) as [[?|[? _]]|?]; auto.
Qed.
Lemma add_coll_total x l : forall db dd Tb Td q ch pos,
  mid db dd Tb Td q ch -> NoDup l.*1 ->
  (forall r n, (r, n) ∈ l -> rdy x true r n /\ ~ Tb x r /\ db r = - n /\ 0 <= amount_at (po_coll pos) (index_of w a r) /\ amount_at (po_coll pos) (index_of w a r) + n <= i128_max /\
     0 <= amount_at (po_sup pos) (index_of w a r) /\
     amount_at (po_coll pos) (index_of w a r) + amount_at (po_sup pos) (index_of w a r) = tok_bal p x (index_of w a r * 2 + 1)) ->
  exists q' ch' Tb', foldM (pos_step add_collateral now x) (q, ch, pos) l =
      Ok (q', ch', pos <| po_coll := foldl (fun b e => <[index_of w a (fst e) := amount_at b (index_of w a (fst e)) + snd e]> b) (po_coll pos) l |>) /\
    mid (shift 1 l db) dd Tb' Td q' ch' /\ (forall y s, Tb' y s -> Tb y s \/ y = x).
Proof.
  induction l as [|[r n] l IH]; intros db dd Tb Td q ch pos M Hnd Hl.
  { exists q, ch, Tb. split; [by destruct pos|]. split; [done|]. by left. }
  apply NoDup_cons in Hnd as [Hni Hnd]. cbn [fst] in Hni. destruct (Hl r n ltac:(left)) as ([Hac Hn Hf Hs] & HT & Hdb & Hle0 & Hle & Hp0 & Hbal).
  pose proof Hac as (cfg & d & d' & Hc & Hd & _). pose proof (idx_of r cfg Hc) as Hix0. rewrite Hix0 in *. specialize (Hs d Hd). cbn iota in Hs, Hf.
  destruct (core_b _ _ _ _ _ _ x r cfg d M Hac Hc Hd HT Hf ltac:(lia) ltac:(lia)) as (r2 & ch0 & q1 & E1 & E2 & E3 & E4 & M1).
  destruct (tok_of_tid p KColl r cfg d x G Hc Hd) as (_ & Ha & _ & Hsu & _). cbn [tid sup_k] in *.
  pose proof (tok_list p (rc_index cfg * 2 + 1) [x] G ltac:(rewrite Ha; eauto) ltac:(apply NoDup_singleton)) as Hb. rewrite sumz_cons, sumz_nil, Hsu in Hb.
  pose proof (tok_bal_nonneg p x (rc_index cfg * 2 + 1) G) as Hb0.
  cbn [foldM foldl]. unfold pos_step at 1. cbn [fst snd]. rewrite E1. cbn [bind]. unfold add_collateral. rewrite (proj2 (Z.eqb_neq n 0)) by lia. cbn [negb].
  rewrite E2, Hix0. unfold get_total, get_coll, get_sup, getz. unfold amount_at in Hbal, Hle, Hle0, Hp0. rewrite Hbal, i128_ok_nonneg by lia. cbn [bind]. rewrite E4. cbn [bind].
  rewrite i128_ok_nonneg by lia. cbn [bind]. rewrite E3, Hdb.
  rewrite i128_ok_nonneg by lia. cbn [bind].
  specialize (M1 n). rewrite Hdb in M1.
  match goal with |- context [foldM _ (_, _, ?P) l] => set (pos1 := P) end.
  destruct (IH _ _ _ _ _ _ pos1 M1 Hnd) as (q' & ch' & Tb' & E & M2 & T2).
  { intros s m Hm. pose proof (not_in_rest r s n m l Hni Hm) as Hsr. destruct (Hl s m ltac:(by right)) as (R & X1 & X2 & X3 & X4 & X5). split; [done|].
    split. { intros [?|[_ ?]]; done. } split. { unfold upd. by rewrite decide_False. }
    destruct R as [(cfg2 & ? & ? & Hc2 & _) _ _ _]. rewrite (idx_of s cfg2 Hc2) in *.
    assert (rc_index cfg <> rc_index cfg2) as Hix. { intros ?. apply Hsr. by eapply idx_inj. }
    assert (amount_at (po_coll pos1) (rc_index cfg2) = amount_at (po_coll pos) (rc_index cfg2)) as ->.
    { unfold pos1, amount_at. simpl. by rewrite lookup_insert_ne. }
    done. }
  exists q', ch', Tb'. split; [exact E|]. split. { cbn [shift foldl fst snd]. rewrite Hdb. replace (- n + 1 * n) with (- n + n) by lia. exact M2. }
  intros y s Hy. destruct (T2 y s Hy) as [[?|[? _]]|?]; auto.
Qed.
Lemma remove_liab_total x l : forall db dd Tb Td q ch pos,
  mid db dd Tb Td q ch -> NoDup l.*1 ->
  (forall r n, (r, n) ∈ l -> accruable w a r /\ 0 < n /\ n <= amount_at (po_liab pos) (index_of w a r) <= i128_max /\
     (forall d, reserve w a r = Some d -> 0 < rd_d_supply d /\ n <= rd_d_supply d + dd r <= i128_max) /\
     (Td x r \/ (~ Td x r /\ emis_fits now p x (index_of w a r * 2) /\ amount_at (po_liab pos) (index_of w a r) = tok_bal p x (index_of w a r * 2)))) ->
  exists q' ch', foldM (pos_step remove_liabilities now x) (q, ch, pos) l = Ok (q', ch', pos <| po_liab := debited (po_liab pos) l |>) /\
    mid db (shift (-1) l dd) Tb (fun y s => Td y s \/ (y = x /\ s ∈ l.*1)) q' ch'.
Proof.
  induction l as [|[r n] l IH]; intros db dd Tb Td q ch pos M Hnd Hl.
  { exists q, ch. split; [by destruct pos|]. eapply mid_ext; [exact M|done|]. intros y s. simpl. rewrite elem_of_nil. tauto. }
  apply NoDup_cons in Hnd as [Hni Hnd]. cbn [fst] in Hni. destruct (Hl r n ltac:(left)) as (Hac & Hn & Hle & Hs & HT).
  pose proof Hac as (cfg & d & d' & Hc & Hd & _). pose proof (idx_of r cfg Hc) as Hix0. rewrite Hix0 in *. destruct (Hs d Hd) as [Hs0 Hs1].
  assert (exists r2 ch0 q1, load_reserve now q ch r true = Ok (r2, ch0) /\ r_index r2 = rc_index cfg /\ rd_d_supply (r_data r2) = rd_d_supply d + dd r /\
    upd_d_emis now q x r2 (amount_at (po_liab pos) (rc_index cfg)) = Ok q1 /\
    forall m, mid db (upd dd r (dd r + m)) Tb (with_b Td x r) q1 (cache_reserve ch0 (set_d_supply r2 (rd_d_supply d + dd r + m)))) as (r2 & ch0 & q1 & E1 & E2 & E3 & E4 & M1).
  { destruct HT as [HT|(HT & Hf & Hbal)].
    - destruct (core_d2 _ _ _ _ _ _ x r cfg d M Hac Hc Hd HT) as (r2 & ch0 & E1 & E2 & E3 & E4 & M1). exists r2, ch0, q. split; [done|]. split; [done|]. split; [done|]. split; [apply E4|].
      intros m. eapply mid_ext; [apply M1|done|]. intros y s. unfold with_b. split; [by left|]. intros [?|[-> ->]]; done.
    - rewrite Hbal. apply core_d; try done. lia. }
  cbn [foldM]. unfold pos_step at 1. cbn [fst snd]. rewrite E1. cbn [bind]. unfold remove_liabilities. rewrite (proj2 (Z.eqb_neq n 0)) by lia. cbn [negb].
  rewrite E2. unfold get_liab, getz. fold (amount_at (po_liab pos) (rc_index cfg)). rewrite E4. cbn [bind].
  rewrite i128_ok_nonneg by lia. cbn [bind]. unfold p_nonneg. rewrite (proj2 (Z.ltb_ge _ 0)) by lia. cbn [bind]. rewrite E3.
  rewrite i128_ok_nonneg by lia. cbn [bind].
  specialize (M1 (-1 * n)). replace (rd_d_supply d + dd r + -1 * n) with (rd_d_supply d + dd r - n) in M1 by lia.
  match goal with |- context [foldM _ (_, _, ?P) l] => set (pos1 := P) end.
  destruct (IH _ _ _ _ _ _ pos1 M1 Hnd) as (q' & ch' & E & M2).
  { intros s m Hm. pose proof (not_in_rest r s n m l Hni Hm) as Hsr. destruct (Hl s m ltac:(by right)) as (R & X1 & X2 & X3 & X4). split; [done|]. split; [done|].
    pose proof R as (cfg2 & ? & ? & Hc2 & _). rewrite (idx_of s cfg2 Hc2) in *.
    assert (rc_index cfg <> rc_index cfg2) as Hix. { intros ?. apply Hsr. by eapply idx_inj. }
    assert (amount_at (po_liab pos1) (rc_index cfg2) = amount_at (po_liab pos) (rc_index cfg2)) as ->.
    { match goal with |- amount_at ?M _ = _ => transitivity (getz M (rc_index cfg2)); [done|] end. unfold pos1. simpl. rewrite getz_put, decide_False by done. done. }
    split; [done|]. unfold upd. rewrite decide_False by done. split; [done|]. destruct X4 as [X4|(X4 & X5 & X6)]; [left; by left|right]. split; [|done]. intros [?|[_ ?]]; done. }
  exists q', ch'. split. { unfold debited. cbn [foldl fst snd]. rewrite Hix0. exact E. }
  cbn [shift foldl fst snd]. eapply mid_ext; [exact M2|done|]. intros y s. unfold with_b. simpl. rewrite elem_of_cons. tauto.
Qed.
Lemma add_liab_total x l : forall db dd Tb Td q ch pos,
  mid db dd Tb Td q ch -> NoDup l.*1 ->
  (forall r n, (r, n) ∈ l -> rdy x false r n /\ ~ Td x r /\ dd r = - n /\ 0 <= amount_at (po_liab pos) (index_of w a r) /\ amount_at (po_liab pos) (index_of w a r) + n <= i128_max /\
     amount_at (po_liab pos) (index_of w a r) = tok_bal p x (index_of w a r * 2)) ->
  exists q' ch', foldM (pos_step add_liabilities now x) (q, ch, pos) l =
      Ok (q', ch', pos <| po_liab := foldl (fun b e => <[index_of w a (fst e) := amount_at b (index_of w a (fst e)) + snd e]> b) (po_liab pos) l |>) /\
    mid db (shift 1 l dd) Tb (fun y s => Td y s \/ (y = x /\ s ∈ l.*1)) q' ch'.
Proof.
  induction l as [|[r n] l IH]; intros db dd Tb Td q ch pos M Hnd Hl.
  { exists q, ch. split; [by destruct pos|]. eapply mid_ext; [exact M|done|]. intros y s. simpl. rewrite elem_of_nil. tauto. }
  apply NoDup_cons in Hnd as [Hni Hnd]. cbn [fst] in Hni. destruct (Hl r n ltac:(left)) as ([Hac Hn Hf Hs] & HT & Hdb & Hle0 & Hle & Hbal).
  pose proof Hac as (cfg & d & d' & Hc & Hd & _). pose proof (idx_of r cfg Hc) as Hix0. rewrite Hix0 in *. specialize (Hs d Hd). cbn iota in Hs, Hf. rewrite Z.add_0_r in Hf.
  destruct (core_d _ _ _ _ _ _ x r cfg d M Hac Hc Hd HT Hf ltac:(lia) ltac:(lia)) as (r2 & ch0 & q1 & E1 & E2 & E3 & E4 & M1).
  destruct (tok_of_tid p KLiab r cfg d x G Hc Hd) as (_ & Ha & _ & Hsu & _). cbn [tid sup_k] in *.
  pose proof (tok_list p (rc_index cfg * 2) [x] G ltac:(rewrite Ha; eauto) ltac:(apply NoDup_singleton)) as Hb. rewrite sumz_cons, sumz_nil, Hsu in Hb.
  pose proof (tok_bal_nonneg p x (rc_index cfg * 2) G) as Hb0.
  cbn [foldM foldl]. unfold pos_step at 1. cbn [fst snd]. rewrite E1. cbn [bind]. unfold add_liabilities. rewrite (proj2 (Z.eqb_neq n 0)) by lia. cbn [negb].
  rewrite E2, Hix0. unfold get_liab, getz. unfold amount_at in Hbal, Hle, Hle0. rewrite <- Hbal in E4. rewrite E4. cbn [bind].
  rewrite i128_ok_nonneg by lia. cbn [bind]. rewrite E3, Hdb.
  rewrite i128_ok_nonneg by lia. cbn [bind].
  specialize (M1 n). rewrite Hdb in M1.
  match goal with |- context [foldM _ (_, _, ?P) l] => set (pos1 := P) end.
  destruct (IH _ _ _ _ _ _ pos1 M1 Hnd) as (q' & ch' & E & M2).
  { intros s m Hm. pose proof (not_in_rest r s n m l Hni Hm) as Hsr. destruct (Hl s m ltac:(by right)) as (R & X1 & X2 & X3 & X4). split; [done|].
    split. { intros [?|[_ ?]]; done. } split. { unfold upd. by rewrite decide_False. }
    destruct R as [(cfg2 & ? & ? & Hc2 & _) _ _ _]. rewrite (idx_of s cfg2 Hc2) in *.
    assert (rc_index cfg <> rc_index cfg2) as Hix. { intros ?. apply Hsr. by eapply idx_inj. }
    assert (amount_at (po_liab pos1) (rc_index cfg2) = amount_at (po_liab pos) (rc_index cfg2)) as ->.
    { unfold pos1, amount_at. simpl. by rewrite lookup_insert_ne. }
    done. }
  exists q', ch'. split; [exact E|]. cbn [shift foldl fst snd]. rewrite Hdb. replace (- n + 1 * n) with (- n + n) by lia. eapply mid_ext; [exact M2|done|].
  intros y s. unfold with_b. simpl. rewrite elem_of_cons. tauto.
Qed.

Lemma mid_start : mid (fun _ => 0) (fun _ => 0) (fun _ _ => False) (fun _ _ => False) p (pool_load p).
Proof.
  constructor; try done; try (intros; by left). intros r Hx. by apply elem_of_nil in Hx.
Qed.
Lemma mid_alike db dd Tb Td q ch p2 : mid db dd Tb Td q ch -> ps_rcfg p2 = ps_rcfg q -> ps_rdata p2 = ps_rdata q -> alike now p p2 (pool_load p) ch.
Proof.
  intros [(P1 & P2 & P3 & P4 & P5) (C1 & C2 & C3) Mr _ _ _ _ _ _] Q1 Q2. constructor; [done..|].
  intros r res Hl. unfold load_reserve in Hl |- *. cbn [andb] in Hl |- *. simpl in Hl. rewrite lookup_empty in Hl. apply bind_ok in Hl as (res0 & Hl & Hx). injection Hx as ->.
  specialize (Mr r). destruct (ch_res ch !! r) as [r2|].
  - destruct Mr as (res' & E & ->). assert (res' = res) as -> by congruence. eexists. split; [reflexivity|]. done.
  - rewrite C1. unfold load_res. rewrite Q1, Q2, P2, P3. fold (load_res now (ps_config p) p r). rewrite Hl. cbn [bind]. eexists. split; [reflexivity|]. done.
Qed.
End fill.

(** ** The health check at the end of a transaction *)
Lemma check_many w a sg p2 ch2 ac pos dec x :
  reachable w -> ps_init (pool w a) = true -> all_valued w a dec pos -> (forall k j, 0 <= getz (get_k k pos) j) -> healthy w a dec pos ->
  ps_list p2 = ps_list (pool w a) -> alike (w_now w) (pool w a) p2 (pool_load (pool w a)) ch2 -> x_orc x = x_orc (w_ext w) ->
  (forall q, q ∈ ch_store ch2 -> is_Some (ch_res ch2 !! q)) ->
  exists ch3, check_hf (ctx w sg) (mkLoop p2 x ch2 pos ac true) = Ok ch3 /\ forall q, q ∈ ch_store ch3 -> is_Some (ch_res ch3 !! q).
Proof.
  intros Hr Hi Hval Hpos Hhf P1 Hal Hx Hst. unfold check_hf. cbn [lo_check lo_pos lo_p lo_x lo_ch].
  destruct (true && _); [|by exists ch2].
  destruct (position_at w a pos dec Hr Hi Hval Hpos) as (d & ch & E & D1 & D2 & D3 & D4 & D5).
  destruct (position_alike (w_now w) (pool w a) p2 (w_ext w) pos (pool_load (pool w a)) ch2 d ch Hal P1 E) as (ch3 & E3 & S3 & R3).
  change (c_now (ctx w sg)) with (w_now w). assert (position_data (w_now w) p2 x ch2 pos = Ok (d, ch3)) as ->.
  { rewrite <- E3. by apply health_orc. }
  cbn [bind].
  destruct Hval as (Hdec & Hd18 & _ & _ & F1 & F2). pose proof (reachable_dec _ _ _ Hr Hdec) as Hd0.
  assert (0 < 10 ^ dec) as Hs by (by apply Z.pow_pos_nonneg). assert (10 ^ dec <= 10 ^ 18) as Hs18 by (by apply Z.pow_le_mono_r).
  assert (forall q, q ∈ ch_store ch3 -> is_Some (ch_res ch3 !! q)) as Hst3. { intros q. rewrite S3. intros Hq. apply R3. by apply Hst. }
  unfold is_hf_under. unfold healthy in Hhf. rewrite <- D1, <- D2 in Hhf. rewrite D3. set (S := 10 ^ dec) in *. clearbody S.
  destruct (Z.eqb_spec (hd_liab_base d) 0) as [Hz|Hz]; [cbn [bind negb]; by exists ch3|].
  unfold SCALAR_7. rewrite fmul_floor_fits by (unfold i128_max; lia). cbn [bind]. unfold as_hf. rewrite D3. rewrite fdiv_floor_fits by nia. cbn [bind].
  rewrite (proj2 (Z.ltb_ge _ _)). 2: { apply Z.div_le_lower_bound; [lia|]. lia. }
  cbn [negb]. by exists ch3.
Qed.

Lemma credit_nonneg w a l : forall b j, (forall r v, (r, v) ∈ l -> 0 < v) -> (forall j, 0 <= getz b j) ->
  0 <= getz (foldl (fun b e => <[index_of w a (fst e) := amount_at b (index_of w a (fst e)) + snd e]> b) b l) j.
Proof.
  induction l as [|[r v] l IH]; intros b j Hl Hb; [apply Hb|]. cbn [foldl fst snd]. apply IH; [intros; eapply Hl; by right|].
  intros k. unfold getz. destruct (decide (k = index_of w a r)) as [->|]; [rewrite lookup_insert|rewrite lookup_insert_ne by done; apply Hb].
  simpl. pose proof (Hb (index_of w a r)) as H. specialize (Hl r v ltac:(left)). unfold getz in H. unfold amount_at. lia.
Qed.
Lemma filled_pos au n age r v : au_lot (filled au n age) !! r = Some v \/ au_bid (filled au n age) !! r = Some v -> 0 < v.
Proof.
  unfold filled. cbn [au_lot au_bid]. intros [H|H]; apply lookup_omap_Some in H as (v0 & H & _); unfold positive in H;
    (match type of H with (if ?b then _ else _) = _ => destruct b eqn:E end; [|discriminate]); injection H as <-; lia.
Qed.

(** ** C65 *)
(** anybody can fill any percentage of a liquidation auction, from its first ledger on and for ever,
    if the liquidated user still has the positions that are taken over and the filler is healthy with
    them *)
Theorem C65_fill_possible : forall w sg a filler to u n au dec,
  reachable w -> filler ∈ sg -> forallb ok_signer sg = true -> to <> a -> filler <> u ->
  auction w a 0 u = Some au -> au_block au <= w_seq w -> 1 <= n <= 100 ->
  let f := filled au n (w_seq w - au_block au) in
  let pos := positions w a filler in
  let pos' := taking w a f pos in
  (forall r v, au_lot f !! r = Some v -> v <= collateral (account w a u) r) ->
  (forall r v, au_bid f !! r = Some v -> v <= owed (account w a u) r) ->
  healthy w a dec pos' -> position_count pos' <= pc_max_positions (ps_config (pool w a)) \/ position_count pos' <= position_count pos ->
  (* all assets can be valued, interest and emissions can be computed and 32-bit and 128-bit integers suffice *)
  all_valued w a dec pos' -> 0 <= au_block au -> w_seq w <= u32_max -> room au ->
  (forall r v, au_lot f !! r = Some v \/ au_bid f !! r = Some v -> accruable w a r /\
     (forall x, x = u \/ x = filler -> emis_fits (w_now w) (pool w a) x (index_of w a r * 2 + 1) /\ emis_fits (w_now w) (pool w a) x (index_of w a r * 2)) /\
     (forall d, reserve w a r = Some d -> rd_b_supply d <= i128_max /\ rd_d_supply d <= i128_max)) ->
  succeeds w (OPool sg a (PSubmit filler filler to [mkReq 6 u n])).
Proof.
  intros w sg a filler to u n au dec Hr Hsg Hok Hto Hne Hau Hage Hn f pos pos' Hlot Hbid Hhf Hcnt Hval Hb0 Hs32 Hroom Hfit.
  assert (ps_init (pool w a) = true) as Hi.
  { destruct (ps_init (pool w a)) eqn:E; [done|]. destruct (reachable_fresh w a Hr E) as [F1 _]. unfold auction in Hau. rewrite F1, lookup_empty in Hau. done. }
  pose proof (reachable_good w a Hr Hi) as G.
  assert (forall r v, au_lot f !! r = Some v \/ au_bid f !! r = Some v -> 0 < v) as Hpv by (intros r v; apply filled_pos).
  set (p := pool w a) in *.
  (* what each asset satisfies *)
  assert (forall r v, au_lot f !! r = Some v -> forall x, x = u \/ x = filler -> rdy w a x true r v /\
    0 <= amount_at (po_coll (get_pos p x)) (index_of w a r) /\ 0 <= amount_at (po_sup (get_pos p x)) (index_of w a r) /\
    amount_at (po_coll (get_pos p x)) (index_of w a r) + amount_at (po_sup (get_pos p x)) (index_of w a r) = tok_bal p x (index_of w a r * 2 + 1) /\
    amount_at (po_coll (get_pos p filler)) (index_of w a r) + v <= i128_max /\ v <= amount_at (po_coll (get_pos p u)) (index_of w a r)) as HL.
  { intros r v Hv x Hx. pose proof (Hpv r v ltac:(by left)) as Hv0. destruct (Hfit r v ltac:(by left)) as (Hac & He & Hsup).
    pose proof Hac as (cfg & d & d' & Hc & Hd & _). fold p in Hc. pose proof (idx_of w a r cfg Hc) as Hix. specialize (Hlot r v Hv). specialize (Hsup d Hd). destruct (He x Hx) as [He1 _].
    unfold account, coll_of in Hlot. simpl in Hlot. unfold positions in Hlot. fold p in Hlot.
    assert (forall y k, 0 <= getz (get_k k (get_pos p y)) (index_of w a r)) as Hnn by (intros y k; apply pos_ok_getz, G).
    assert (forall y, tok_bal p y (index_of w a r * 2 + 1) = amount_at (po_coll (get_pos p y)) (index_of w a r) + amount_at (po_sup (get_pos p y)) (index_of w a r)) as Hbal.
    { intros y. destruct (tok_of_tid p KColl r cfg d y G Hc Hd) as (_ & _ & Hb & _). cbn [tid ebal] in Hb. rewrite Hix, Hb. done. }
    destruct (tok_of_tid p KColl r cfg d u G Hc Hd) as (_ & Ha & _ & Hsu & _). cbn [tid sup_k] in *. rewrite <- Hix in *.
    pose proof (tok_list p (index_of w a r * 2 + 1) [u; filler] G ltac:(rewrite Ha; eauto)) as Ht. rewrite !sumz_cons, sumz_nil, Hsu, !Hbal in Ht.
    assert (NoDup [u; filler]) as Hn2. { apply NoDup_cons. split; [|apply NoDup_singleton]. intros Hxx. apply elem_of_list_singleton in Hxx. by subst. }
    specialize (Ht Hn2). pose proof (Hnn u KColl) as N1. pose proof (Hnn u KSup) as N2. pose proof (Hnn filler KColl) as N3. pose proof (Hnn filler KSup) as N4.
    cbn [get_k] in N1, N2, N3, N4. unfold getz in N1, N2, N3, N4. unfold amount_at in *.
    split; [constructor; try done; intros d2 Hd2; assert (d2 = d) as -> by congruence; lia|].
    split; [destruct Hx as [->| ->]; lia|]. split; [destruct Hx as [->| ->]; lia|]. split; [by rewrite Hbal|]. lia. }
  assert (forall r v, au_bid f !! r = Some v -> forall x, x = u \/ x = filler -> rdy w a x false r v /\
    0 <= amount_at (po_liab (get_pos p x)) (index_of w a r) /\
    amount_at (po_liab (get_pos p x)) (index_of w a r) = tok_bal p x (index_of w a r * 2) /\
    amount_at (po_liab (get_pos p filler)) (index_of w a r) + v <= i128_max /\ v <= amount_at (po_liab (get_pos p u)) (index_of w a r)) as HB.
  { intros r v Hv x Hx. pose proof (Hpv r v ltac:(by right)) as Hv0. destruct (Hfit r v ltac:(by right)) as (Hac & He & Hsup).
    pose proof Hac as (cfg & d & d' & Hc & Hd & _). fold p in Hc. pose proof (idx_of w a r cfg Hc) as Hix. specialize (Hbid r v Hv). specialize (Hsup d Hd). destruct (He x Hx) as [_ He1].
    unfold account, liab_of in Hbid. simpl in Hbid. unfold positions in Hbid. fold p in Hbid.
    assert (forall y k, 0 <= getz (get_k k (get_pos p y)) (index_of w a r)) as Hnn by (intros y k; apply pos_ok_getz, G).
    assert (forall y, tok_bal p y (index_of w a r * 2) = amount_at (po_liab (get_pos p y)) (index_of w a r)) as Hbal.
    { intros y. destruct (tok_of_tid p KLiab r cfg d y G Hc Hd) as (_ & _ & Hb & _). cbn [tid ebal] in Hb. rewrite Hix, Hb. done. }
    destruct (tok_of_tid p KLiab r cfg d u G Hc Hd) as (_ & Ha & _ & Hsu & _). cbn [tid sup_k] in *. rewrite <- Hix in *.
    pose proof (tok_list p (index_of w a r * 2) [u; filler] G ltac:(rewrite Ha; eauto)) as Ht. rewrite !sumz_cons, sumz_nil, Hsu, !Hbal in Ht.
    assert (NoDup [u; filler]) as Hn2. { apply NoDup_cons. split; [|apply NoDup_singleton]. intros Hxx. apply elem_of_list_singleton in Hxx. by subst. }
    specialize (Ht Hn2). pose proof (Hnn u KLiab) as N1. pose proof (Hnn filler KLiab) as N3.
    cbn [get_k] in N1, N3. unfold getz in N1, N3. unfold amount_at in *.
    split; [constructor; try done; [by rewrite Z.add_0_r|]; intros d2 Hd2; assert (d2 = d) as -> by congruence; lia|].
    split; [destruct Hx as [->| ->]; lia|]. split; [by rewrite Hbal|]. lia. }
  (* the four loops *)
  destruct (remove_coll_total w a Hr G u (entries (au_lot f)) _ _ _ _ p (pool_load p) (get_pos p u) (mid_start w a) (entries_fst_NoDup _)) as (q1 & ch1 & pu1 & Tb1 & E1 & S1 & L1 & _ & M1 & X1).
  { intros r v Hv. apply elem_of_entries in Hv. destruct (HL r v Hv u ltac:(by left)) as (A1 & A2 & A3 & A4 & A5 & A6). split; [exact A1|]. split; [intros []|]. done. }
  destruct (remove_liab_total w a Hr G u (entries (au_bid f)) _ _ _ _ q1 ch1 pu1 M1 (entries_fst_NoDup _)) as (q2 & ch2 & E2 & M2).
  { intros r v Hv. apply elem_of_entries in Hv. destruct (HB r v Hv u ltac:(by left)) as ([A1a A1b A1c A1d] & A2 & A3 & A4 & A5). rewrite L1. rewrite Z.add_0_r in A1c. split; [done|].
    split; [done|]. pose proof A1a as (cfg & d & d' & Hc & Hd & _). pose proof (A1d d Hd) as Hsd.
    pose proof (tok_of_tid p KLiab r cfg d u G Hc Hd) as (_ & Ha & _ & Hsu & _). cbn [tid sup_k] in *.
    pose proof (tok_list p (rc_index cfg * 2) [u] G ltac:(rewrite Ha; eauto) ltac:(apply NoDup_singleton)) as Ht. rewrite sumz_cons, sumz_nil, Hsu in Ht.
    rewrite <- (idx_of w a r cfg Hc) in Ht. split; [lia|]. split; [intros d2 Hd2; assert (d2 = d) as -> by congruence; lia|]. right. split; [intros []|]. done. }
  destruct (add_coll_total w a Hr G filler (entries (au_lot f)) _ _ _ _ q2 ch2 pos M2 (entries_fst_NoDup _)) as (q3 & ch3 & Tb3 & E3 & M3 & X3).
  { intros r v Hv. rewrite (shift_in _ _ _ r v (entries_fst_NoDup _) Hv). apply elem_of_entries in Hv. destruct (HL r v Hv filler ltac:(by right)) as (A1 & A2 & A3 & A4 & A5 & A6).
    split; [done|]. split; [intros Hx; by destruct (X1 _ _ Hx)|]. split; [lia|]. done. }
  destruct (add_liab_total w a Hr G filler (entries (au_bid f)) _ _ _ _ q3 ch3 (pos <| po_coll := credited w a (au_lot f) (po_coll pos) |>) M3 (entries_fst_NoDup _)) as (q4 & ch4 & E4 & M4).
  { intros r v Hv. rewrite (shift_in _ _ _ r v (entries_fst_NoDup _) Hv). apply elem_of_entries in Hv. destruct (HB r v Hv filler ltac:(by right)) as (A1 & A2 & A3 & A4 & A5).
    split; [done|]. split; [intros [[]|[? _]]; done|]. split; [lia|]. done. }
  assert (forall k j, 0 <= getz (get_k k pos') j) as Hpos.
  { intros k j. pose proof (fun j => pos_ok_getz p filler k j (gd_pos _ G)) as Hk. destruct k; unfold pos', taking; cbn [get_k]; simpl; first [exact (Hk j)|apply credit_nonneg; [|exact Hk]];
      intros r v Hv; apply elem_of_entries in Hv; apply (Hpv r v); auto. }
  set (rem := remainder au n).
  set (p5 := match rem with Some a0 => set_auction (set_pos q4 u (pu1 <| po_liab := debited w a (po_liab pu1) (entries (au_bid f)) |>)) 0 u a0 | None => del_auction (set_pos q4 u (pu1 <| po_liab := debited w a (po_liab pu1) (entries (au_bid f)) |>)) 0 u end).
  assert (do_request (ctx w sg) a filler (loop0 w a filler) (mkReq 6 u n) = Ok (mkLoop p5 (w_ext w) ch4 pos' no_actions true)) as Hdo.
  { unfold do_request. cbn [rq_amt rq_type]. unfold p_nonneg. rewrite (proj2 (Z.ltb_ge n 0)) by lia. cbn [bind].
    unfold require_action. simpl (_ =? _). cbn [orb]. rewrite !andb_false_r. cbn [orb bind].
    unfold do_fill. cbn [lo_p lo_x lo_ch lo_pos rq_addr rq_amt lo_check lo_ac loop0]. unfold fill.
    rewrite (proj2 (Z.eqb_neq u filler)) by congruence. cbn [negb]. unfold auction in Hau. fold p in Hau |- *. rewrite Hau. cbn [unwrap bind].
    assert (as_u64 n = n) as ->. { unfold as_u64. apply Z.mod_small. lia. }
    change (c_seq (ctx w sg)) with (w_seq w). rewrite scale_total by (done || lia). fold f rem. cbn [bind]. change (0 =? 0) with true. cbn iota.
    unfold fill_user_liq, rm_positions, add_positions. change (c_now (ctx w sg)) with (w_now w).
    rewrite E1. cbn [bind]. rewrite E2. cbn [bind]. change (get_pos p filler) with pos. rewrite E3. cbn [bind]. fold (credited w a (au_lot f) (po_coll pos)). rewrite E4. cbn [bind]. done. }
  destruct (check_many w a sg p5 ch4 no_actions pos' dec (w_ext w) Hr Hi Hval Hpos Hhf) as (ch5 & Hch & Hst); [|..|done| |].
  { unfold p5. destruct rem; simpl; apply M4. }
  { eapply mid_alike; [exact M4|..]; unfold p5; destruct rem; done. }
  { apply M4. }
  eapply (submit_checked w sg a filler to _ _ ch5 (x_tok (w_ext w)) (x_tok (w_ext w)) Hr Hsg Hok Hto Hi); [done| |exact Hdo|exact Hch| |exact Hst| | ].
  - simpl. unfold i128_max. lia.
  - cbn [lo_pos lo_ch]. destruct (md_c _ _ _ _ _ _ _ _ M4) as [-> _]. destruct Hcnt as [Hcnt|Hcnt]; [right|left]; exact Hcnt.
  - done.
  - done.
Qed.

(** conversely, the user must still have what the filler takes over, and the filler must be somebody
    else *)
Theorem C65_fill_needs : forall w sg a filler spender to u n out w',
  reachable w -> exec w (OPool sg a (PSubmit filler spender to [mkReq 6 u n])) = Ok (out, w') ->
  exists au, auction w a 0 u = Some au /\ filler <> u /\ au_block au <= w_seq w /\
    let f := filled au (n mod 2 ^ 64) (w_seq w - au_block au) in
    (forall r v, au_lot f !! r = Some v -> v <= collateral (account w a u) r) /\
    (forall r v, au_bid f !! r = Some v -> v <= owed (account w a u) r).
Proof.
  intros w sg a filler spender to u n out w' Hr H.
  pose proof (C20_fill_moves_exactly _ _ _ _ _ _ _ _ _ _ Hr H) as (au & Hau & _ & Hacc & _).
  destruct (C21_no_self_fill _ _ _ _ _ _ _ _ _ 0 (mkReq 6 u n) Hr H ltac:(left) ltac:(lia) eq_refl) as (Hne & au2 & Hau2 & Hb).
  cbn [rq_addr] in *. rewrite Hau in Hau2. injection Hau2 as <-.
  pose proof (submit_tx _ _ _ _ _ _ _ _ _ Hr H) as (_ & G' & _).
  exists au. split; [done|]. split; [done|]. split; [done|]. cbv zeta in *. set (f := filled _ _ _) in *.
  assert (forall r, 0 <= collateral (account w' a u) r /\ 0 <= owed (account w' a u) r) as Hnn.
  { intros r. split; [apply (pos_ok_getz (pool w' a) u KColl (index_of w' a r) (gd_pos _ G'))|apply (pos_ok_getz (pool w' a) u KLiab (index_of w' a r) (gd_pos _ G'))]. }
  split; intros r v Hv; destruct (Hacc u r) as (A1 & A2 & _); destruct (Hnn r) as [N1 N2];
    rewrite ?A1, ?A2, Z.eqb_refl, (proj2 (Z.eqb_neq u filler)) in * by congruence; unfold amount_at in *; rewrite Hv in *; simpl in *; lia.
Qed.
