(** * Backstop: emissions of depositors *)
From Verif Require Import Base Types Token Emitter Factory Backstop PoolReserve PoolUser PoolHealth
  PoolAuction PoolSubmit PoolEmis PoolAdmin World Facts XMove Spec FrameFacts PoolFrame PoolCfg BackMoves BackInv.

(** ** Totals of the observation log *)
Definition alloc_dep (l : list Ev) (p : Addr) : Z :=
  sumz (fun e => match e with EvAlloc q _ d => if q =? p then d else 0 | _ => 0 end) l.
Definition alloc_pool (l : list Ev) (p : Addr) : Z :=
  sumz (fun e => match e with EvAlloc q n _ => if q =? p then n else 0 | _ => 0 end) l.
Definition claimed_by (l : list Ev) (p : Addr) : Z :=
  sumz (fun e => match e with EvBClaim q _ n => if q =? p then n else 0 | _ => 0 end) l.
Definition handed (l : list Ev) (p : Addr) : Z :=
  sumz (fun e => match e with EvHandOver q n => if q =? p then n else 0 | _ => 0 end) l.

(** ** Emission moves *)
Definition uptodate (x : Ext) (p u : Addr) : Prop := buidx x p u = bidx x p.
Definition same_emis (x x' : Ext) : Prop :=
  bs_ecfg (x_bs x') = bs_ecfg (x_bs x) /\ bs_edata (x_bs x') = bs_edata (x_bs x) /\ bs_uemis (x_bs x') = bs_uemis (x_bs x) /\
  forall p, alloc_dep (x_log x') p = alloc_dep (x_log x) p /\ claimed_by (x_log x') p = claimed_by (x_log x) p.
(** unqueued shares of a pool are the free shares of its users *)
Definition free_ok (x : Ext) : Prop :=
  users_nonneg x /\ (forall p, pb_shares (get_pb x p) - pb_q4w (get_pb x p) = usum ub_shares x p) /\ forall p, 0 <= pb_q4w (get_pb x p).

(** the stream of pool [p] is settled as of [now] *)
Definition still (now : Z) (x : Ext) (p : Addr) : Prop := forall cfg d, bs_ecfg (x_bs x) !! p = Some cfg -> bs_edata (x_bs x) !! p = Some d ->
  ec_exp cfg <= ed_last d \/ now <= ed_last d \/ ec_eps cfg = 0.

(** [ok]: the shares of these users change only at an up-to-date index of the user; [em]: pools that had no unqueued shares when the transaction started.
    For the other pools shares change only when the stream is settled.
    [cl]: who may claim at which pool. *)
Inductive emove (c : Ctx) (ok em : Addr -> Prop) (cl : Addr -> Addr -> Prop) : Ext -> Ext -> Prop :=
| em_none x x' : same_emis x x' -> bs_user (x_bs x') = bs_user (x_bs x) -> emove c ok em cl x x'
| em_upd x p u n x' : free_ok x -> b_emissions c x p (get_pb x p) u (get_ub x p u) false = Ok (n, x') -> emove c ok em cl x x'
| em_claim x p u n x' : cl p u -> free_ok x -> b_emissions c x p (get_pb x p) u (get_ub x p u) true = Ok (n, x') ->
    emove c ok em cl x (add_log (EvBClaim p u n) x')
| em_bal x x' p u ub : same_emis x x' -> bs_user (x_bs x') = <[(p, u) := ub]> (bs_user (x_bs x)) ->
    (ok u -> ub_shares ub = ub_shares (get_ub x p u) \/ uptodate x p u) ->
    ub_shares ub = ub_shares (get_ub x p u) \/ em p \/ still (c_now c) x p -> emove c ok em cl x x'
| em_alloc x p np nb x1 x' : free_ok x -> 0 <= nb -> b_set_ecfg c x p (get_pb x p) nb = Ok x1 -> same_emis x1 x' ->
    bs_user (x_bs x') = bs_user (x_bs x1) -> emove c ok em cl x (add_log (EvAlloc p np nb) x').
Notation emoves c ok em cl := (rtc (emove c ok em cl)).

Lemma uptodate_upd c x p u n x' pb ub cl :
  b_emissions c x p pb u ub cl = Ok (n, x') -> emis_nonneg x ->
  (bs_ecfg (x_bs x) !! p = None -> uptodate x p u) -> uptodate x' p u.
Proof.
  intros H He Hn. destruct (bs_ecfg (x_bs x) !! p) as [cfg|] eqn:Ec.
  - eapply b_emissions_some in H as (d & d' & ue & Ed & -> & _ & Hi & _); [|done|by eapply He].
    unfold uptodate, buidx, bidx. simpl. rewrite !lookup_insert. simpl. done.
  - apply b_emissions_none in H as [_ ->]; [|done]. auto.
Qed.

(** no emissions configured: no data *)
Definition cfg_ok (x : Ext) : Prop := forall p, bs_ecfg (x_bs x) !! p = None ->
  bs_edata (x_bs x) !! p = None /\ forall u, bs_uemis (x_bs x) !! (p, u) = None.
(** emission clocks are in the past *)
Definition time_ok (now : Z) (x : Ext) : Prop := forall p d, bs_edata (x_bs x) !! p = Some d -> ed_last d <= now.

Lemma cfg_ok_uptodate x p u : cfg_ok x -> bs_ecfg (x_bs x) !! p = None -> uptodate x p u.
Proof. intros H Hn. destruct (H p Hn) as [H1 H2]. unfold uptodate, buidx, bidx. by rewrite H1, H2. Qed.

(** ** Invariants of emission moves *)
Definition einv (now : Z) (x : Ext) : Prop := emis_nonneg x /\ cfg_ok x /\ time_ok now x.

Lemma b_emissions_einv c x p u pb ub cl n x' :
  b_emissions c x p pb u ub cl = Ok (n, x') -> 0 <= ub_shares ub -> einv (c_now c) x -> einv (c_now c) x'.
Proof.
  intros H Hs (He & Hc & Ht). split; [by eapply b_emissions_nonneg|].
  destruct (bs_ecfg (x_bs x) !! p) as [cfg|] eqn:Ec.
  - eapply b_emissions_some in H as (d & d' & ue & Ed & -> & Hd & _); [|done|by eapply He]. split.
    + intros q Hq. simpl in *. destruct (Hc q Hq) as [H1 H2].
      assert (q <> p) by congruence. rewrite lookup_insert_ne by done. split; [done|]. intros v. rewrite lookup_insert_ne; [done|congruence].
    + intros q e. simpl. rewrite lookup_insert_Some. intros [[<- <-]|[_ ?]]; [|by eapply Ht].
      destruct Hd as [[-> _]|[-> _]]; [by eapply Ht|lia].
  - apply b_emissions_none in H as [_ ->]; [|done]. done.
Qed.

(** the state after [b_set_ecfg] *)
Lemma b_set_ecfg_spec c x p pb nb x' :
  b_set_ecfg c x p pb nb = Ok x' -> einv (c_now c) x -> 0 <= nb ->
  exists d', x' = set_becfg (set_bedata x p d') p (mkEmisConfig (c_now c + 604800)
      ((nb + match bs_ecfg (x_bs x) !! p with Some cfg => ec_eps cfg * Z.max 0 (ec_exp cfg - c_now c) | None => 0 end) / 604800)) /\
    ed_last d' = c_now c /\
    match bs_ecfg (x_bs x) !! p with
    | None => ed_index d' = 0
    | Some cfg => exists d, bs_edata (x_bs x) !! p = Some d /\
       (ed_index d' = ed_index d /\ (ec_exp cfg <= ed_last d \/ c_now c = ed_last d \/ ec_eps cfg = 0 \/ pb_shares pb = 0) \/
        ed_last d < ec_exp cfg /\ ed_last d < c_now c /\ 0 < pb_shares pb - pb_q4w pb /\
        ed_index d' = ed_index d + (Z.min (ec_exp cfg) (c_now c) - ed_last d) * ec_eps cfg * 10000000 / (pb_shares pb - pb_q4w pb))
    end.
Proof.
  intros H (He & Hc & Ht) Hnb. unfold b_set_ecfg in H. mon H.
  match goal with E : u64 (c_now c + _) = Ok _ |- _ => apply u64_ok in E as [-> _] end.
  match goal with E : u64 (Z.quot _ _) = Ok _ |- _ => apply u64_ok in E as [-> _] end.
  destruct (bs_ecfg (x_bs x) !! p) as [cfg|] eqn:Ec.
  - mon E. assert (0 <= ec_eps cfg) as Heps by (by eapply He).
    match goal with E : b_update_data _ _ _ _ _ = Ok (?dd, _) |- _ => rename dd into dn, E into Eud end.
    apply update_data_spec in Eud as (d & Ed & -> & Hd); [|done].
    pose proof (Ht _ _ Ed) as Hl.
    assert ((if negb (ed_last dn =? c_now c) then set_bedata (set_bedata x p dn) p (mkEmisData (ed_index dn) (c_now c)) else set_bedata x p dn) =
      set_bedata x p (mkEmisData (ed_index dn) (c_now c))) as Hs.
    { destruct (ed_last dn =? c_now c) eqn:El; simpl.
      - f_equal. destruct dn; simpl in *. f_equal. lia.
      - unfold set_bedata, set_bs. destruct x as [? ? []]. unfold set; simpl. by rewrite insert_insert. }
    rewrite Hs in E. clear Hs.
    exists (mkEmisData (ed_index dn) (c_now c)).
    assert (z = nb + ec_eps cfg * Z.max 0 (ec_exp cfg - c_now c) /\ e = set_bedata x p (mkEmisData (ed_index dn) (c_now c))) as [-> ->].
    { destruct (c_now c <? ec_exp cfg) eqn:El; mon E.
      - repeat match goal with E : u64 _ = Ok _ |- _ => apply u64_ok in E as [-> _] | E : i128 _ = Ok _ |- _ => apply i128_ok in E as [-> _] end.
        split; [|done]. rewrite Z.max_r by lia. lia.
      - split; [|done]. rewrite Z.max_l by lia. lia. }
    split; [|split; [done|]].
    + rewrite Z.quot_div_nonneg; [done| |lia]. nia.
    + exists d. split; [done|]. simpl. destruct Hd as [[-> Hw]|(_ & ? & ? & ? & ? & ? & ?)]; [left; split; [done|exact Hw]|]. right. auto.
  - mon E. eexists (mkEmisData 0 (c_now c)). split; [|done]. rewrite Z.add_0_r. rewrite Z.quot_div_nonneg by lia. done.
Qed.

Lemma b_set_ecfg_einv c x p pb nb x' :
  b_set_ecfg c x p pb nb = Ok x' -> einv (c_now c) x -> 0 <= nb -> einv (c_now c) x'.
Proof.
  intros H HE Hnb. destruct (b_set_ecfg_spec _ _ _ _ _ _ H HE Hnb) as (d' & -> & Hl & Hd). destruct HE as (He & Hc & Ht).
  assert (0 <= ed_index d') as Hi.
  { destruct (bs_ecfg (x_bs x) !! p) as [cfg|] eqn:Ec; [|lia]. destruct Hd as (d & Ed & Hor).
    assert (0 <= ed_index d) by (by eapply He). assert (0 <= ec_eps cfg) by (by eapply He).
    destruct Hor as [[-> _]|(? & ? & ? & ->)]; [done|].
    assert (0 <= (Z.min (ec_exp cfg) (c_now c) - ed_last d) * ec_eps cfg * 10000000 / (pb_shares pb - pb_q4w pb)); [|lia].
    apply Z.div_pos; [|lia]. apply Z.mul_nonneg_nonneg; [|lia]. apply Z.mul_nonneg_nonneg; lia. }
  destruct He as (E1 & E2 & E3). split; [split; [|split]|split]; simpl.
  - intros q e. rewrite lookup_insert_Some. intros [[_ <-]|[_ ?]]; [done|by eapply E1].
  - done.
  - intros q e. rewrite lookup_insert_Some. intros [[_ <-]|[_ ?]]; [simpl|by eapply E3].
    apply Z.div_pos; [|lia]. destruct (bs_ecfg (x_bs x) !! p) as [cfg|] eqn:Ec; [|lia]. assert (0 <= ec_eps cfg) by (by eapply E3). nia.
  - intros q. simpl. rewrite lookup_insert_None. intros [Hq Hne]. rewrite lookup_insert_ne by done. by apply Hc.
  - intros q e. simpl. rewrite lookup_insert_Some. intros [[_ <-]|[_ ?]]; [lia|by eapply Ht].
Qed.

Lemma same_emis_einv now x x' : same_emis x x' -> einv now x -> einv now x'.
Proof. intros (H1 & H2 & H3 & _) (A & B & C). unfold einv, emis_nonneg, cfg_ok, time_ok. rewrite H1, H2, H3. done. Qed.

Lemma emove_einv c ok em cl x x' : emove c ok em cl x x' -> einv (c_now c) x -> einv (c_now c) x'.
Proof.
  destruct 1 as [x x' Hs _|x p u n x' [Hu _] H|x p u n x' _ [Hu _] H|x x' p u ub Hs _ _ _|x p np nb x1 x' _ Hnb H Hs _]; intros He.
  - by eapply same_emis_einv.
  - eapply b_emissions_einv; [exact H|by apply users_get|done].
  - eapply (b_emissions_einv _ _ _ _ _ _ _ _ _ H) in He; [|by apply users_get]. exact He.
  - by eapply same_emis_einv.
  - eapply b_set_ecfg_einv in He; [|exact H|done]. eapply same_emis_einv in He; [|exact Hs]. exact He.
Qed.

(** ** Claimed never exceeds allocated *)
Definition remain (x : Ext) (p : Addr) : Z :=
  match bs_ecfg (x_bs x) !! p, bs_edata (x_bs x) !! p with
  | Some cfg, Some d => ec_eps cfg * Z.max 0 (ec_exp cfg - ed_last d)
  | _, _ => 0
  end.
Definition owed (x : Ext) (p : Addr) (l : list Addr) : Z :=
  sumz (fun u => 10000000 * buacc x p u + ub_shares (get_ub x p u) * (bidx x p - buidx x p u)) l.
Definition covered (x : Ext) : Prop := forall p l, NoDup l ->
  owed x p l + 10000000 * claimed_by (x_log x) p + 10000000 * remain x p <= 10000000 * alloc_dep (x_log x) p.

Lemma owed_upd x x' p u l :
  NoDup l -> u ∈ l -> bidx x' p = bidx x p ->
  (forall v, v <> u -> buacc x' p v = buacc x p v /\ buidx x' p v = buidx x p v /\ ub_shares (get_ub x' p v) = ub_shares (get_ub x p v)) ->
  owed x' p l = owed x p l - (10000000 * buacc x p u + ub_shares (get_ub x p u) * (bidx x p - buidx x p u))
    + (10000000 * buacc x' p u + ub_shares (get_ub x' p u) * (bidx x p - buidx x' p u)).
Proof.
  intros Hn Hi Hb H. unfold owed. rewrite (sumz_upd (fun v => 10000000 * buacc x p v + ub_shares (get_ub x p v) * (bidx x p - buidx x p v)) _ l u); [|done|done|].
  - rewrite Hb. done.
  - intros v Hv. destruct (H v Hv) as (-> & -> & ->). by rewrite Hb.
Qed.
Lemma owed_ext x x' p l : bidx x' p = bidx x p ->
  (forall v, v ∈ l -> buacc x' p v = buacc x p v /\ buidx x' p v = buidx x p v /\ ub_shares (get_ub x' p v) = ub_shares (get_ub x p v)) ->
  owed x' p l = owed x p l.
Proof. intros Hb H. apply sumz_ext. intros v Hv. destruct (H v Hv) as (-> & -> & ->). by rewrite Hb. Qed.

(** advancing the index hands out at most the elapsed emissions *)
Lemma owed_index x x' p l dt eps U :
  NoDup l -> free_ok x -> bs_user (x_bs x') = bs_user (x_bs x) -> bs_uemis (x_bs x') = bs_uemis (x_bs x) ->
  U = pb_shares (get_pb x p) - pb_q4w (get_pb x p) -> 0 < U -> 0 <= dt * eps ->
  bidx x' p = bidx x p + dt * eps * 10000000 / U ->
  owed x' p l <= owed x p l + 10000000 * (dt * eps).
Proof.
  intros Hn [Hu [Hf _]] H1 H2 -> HU Hd Hb. unfold owed.
  rewrite (sumz_ext _ (fun u => (10000000 * buacc x p u + ub_shares (get_ub x p u) * (bidx x p - buidx x p u)) +
     (dt * eps * 10000000 / (pb_shares (get_pb x p) - pb_q4w (get_pb x p))) * ub_shares (get_ub x p u))).
  2:{ intros u _. rewrite Hb. unfold buacc, buidx. rewrite H2, (get_ub_same _ _ _ _ H1). lia. }
  rewrite sumz_add, sumz_mul.
  pose proof (usum_list ub_shares x p l Hu eq_refl Hn) as Hl. rewrite <- Hf in Hl.
  assert (0 <= sumz (fun u => ub_shares (get_ub x p u)) l) by (apply sumz_nonneg; intros; by apply users_get).
  set (U := pb_shares (get_pb x p) - pb_q4w (get_pb x p)) in *.
  pose proof (fdiv_spec (dt * eps * 10000000) U HU).
  assert (0 <= dt * eps * 10000000 / U) by (apply Z.div_pos; lia).
  set (A := dt * eps * 10000000 / U) in *.
  assert (A * sumz (fun u => ub_shares (get_ub x p u)) l <= U * A) by nia. lia.
Qed.

Lemma b_emissions_covered c x p u cl n x' :
  b_emissions c x p (get_pb x p) u (get_ub x p u) cl = Ok (n, x') -> free_ok x -> einv (c_now c) x -> covered x ->
  forall q l, NoDup l ->
    owed x' q l + 10000000 * claimed_by (x_log x') q + 10000000 * remain x' q + (if p =? q then 10000000 * n else 0) <= 10000000 * alloc_dep (x_log x') q.
Proof.
  intros H Hfo (He & Hc & Ht) K q l Hl. destruct (bs_ecfg (x_bs x) !! p) as [cfg|] eqn:Ec.
  2:{ apply b_emissions_none in H as [-> ->]; [|done]. specialize (K q l Hl). destruct (p =? q); lia. }
  pose proof (users_get _ p u (proj1 Hfo)) as Hsh.
  destruct (b_emissions_nonneg _ _ _ _ _ _ _ _ _ H He Hsh) as [He' Hnn].
  assert (0 <= ec_eps cfg) as Heps by (by eapply He).
  eapply b_emissions_some in H as (d & d' & ue & Ed & -> & Hd & Hi & _ & Ha & Hcl); [|done|done].
  destruct (Z.eqb_spec p q) as [->|Hne].
  2:{ assert (owed (set_buemis (set_bedata x p d') p u ue) q l = owed x q l) as ->.
      { apply owed_ext.
        - unfold bidx. simpl. by rewrite lookup_insert_ne.
        - intros v _. unfold buacc, buidx. simpl. rewrite lookup_insert_ne by congruence. done. }
      assert (remain (set_buemis (set_bedata x p d') p u ue) q = remain x q) as ->.
      { unfold remain. simpl. by rewrite lookup_insert_ne. }
      specialize (K q l Hl). simpl. lia. }
  (* first the index, for any list *)
  set (x1 := set_bedata x q d').
  assert (forall l, NoDup l -> owed x1 q l + 10000000 * claimed_by (x_log x) q + 10000000 * remain x1 q <= 10000000 * alloc_dep (x_log x) q) as K1.
  { clear l Hl. intros l Hl. specialize (K q l Hl). destruct Hd as [[-> _]|(Hl1 & Hl2 & Hl3 & _ & _ & HU & Hidx)].
    - unfold x1. rewrite set_bedata_id by done. done.
    - assert (owed x1 q l <= owed x q l + 10000000 * ((Z.min (ec_exp cfg) (c_now c) - ed_last d) * ec_eps cfg)) as Ho.
      { eapply owed_index; [done|done|done|done|reflexivity|done|apply Z.mul_nonneg_nonneg; lia|].
        unfold bidx, x1. simpl. rewrite lookup_insert, Ed. simpl. done. }
      assert (remain x1 q = remain x q - (Z.min (ec_exp cfg) (c_now c) - ed_last d) * ec_eps cfg) as Hr.
      { unfold remain, x1. simpl. rewrite Ec, lookup_insert, Ed, Hl1. rewrite (Z.max_r 0 (ec_exp cfg - ed_last d)) by lia.
        replace (Z.max 0 (ec_exp cfg - c_now c)) with (ec_exp cfg - Z.min (ec_exp cfg) (c_now c)) by lia. lia. }
      lia. }
  set (x2 := set_buemis x1 q u ue).
  assert (remain x2 q = remain x1 q) as -> by done.
  assert (bidx x1 q = ed_index d') as Hb1 by (unfold bidx, x1; simpl; by rewrite lookup_insert).
  assert (bidx x2 q = bidx x1 q) as Hb2 by done.
  assert (forall v, v <> u -> buacc x2 q v = buacc x1 q v /\ buidx x2 q v = buidx x1 q v /\ ub_shares (get_ub x2 q v) = ub_shares (get_ub x1 q v)) as Hot.
  { intros v Hv. unfold buacc, buidx, x2. simpl. rewrite lookup_insert_ne by congruence. done. }
  assert (buacc x1 q u = buacc x q u /\ buidx x1 q u = buidx x q u) as [Hc1 Hc2] by done.
  pose proof (fdiv_spec (ub_shares (get_ub x q u) * (ed_index d' - buidx x q u)) 10000000 ltac:(lia)) as Hfl.
  assert (0 <= ue_accrued ue) as Hue.
  { destruct He' as (_ & He' & _). eapply (He' q u). simpl. by rewrite lookup_insert. }
  change (x_log x2) with (x_log x). change (remain x2 q) with (remain x1 q).
  destruct (decide (u ∈ l)) as [Hin|Hin].
  - rewrite (owed_upd x1 x2 q u l) by done. specialize (K1 l Hl).
    assert (buacc x2 q u = ue_accrued ue /\ buidx x2 q u = ed_index d') as [-> ->].
    { unfold buacc, buidx, x2. simpl. rewrite lookup_insert. simpl. done. }
    rewrite Hc1, Hc2, Hb1, Z.sub_diag, Z.mul_0_r.
    change (get_ub x1 q u) with (get_ub x q u). lia.
  - rewrite (owed_ext x1 x2 q l); [|done|intros v Hv; apply Hot; by intros ->].
    specialize (K1 (u :: l) ltac:(by constructor)). unfold owed in K1 at 1. simpl in K1. fold (owed x1 q l) in K1.
    rewrite Hc1, Hc2, Hb1 in K1. change (get_ub x1 q u) with (get_ub x q u) in K1. lia.
Qed.

Lemma same_emis_covered x x' : same_emis x x' ->
  (forall p l, owed x' p l = owed x p l) -> covered x -> covered x'.
Proof.
  intros (H1 & H2 & H3 & H4) Ho K p l Hl. specialize (K p l Hl). rewrite Ho.
  unfold remain. destruct (H4 p) as [-> ->]. rewrite H1, H2. exact K.
Qed.
Lemma emove_covered c ok em cl x x' : emove c ok em cl x x' -> (forall u, ok u) -> einv (c_now c) x -> covered x -> covered x'.
Proof.
  destruct 1 as [x x' Hs Hu|x p u n x' Hf H|x p u n x' _ Hf H|x x' p u ub Hs Hu Hok _|x p np nb x1 x' Hf Hnb H Hs Hu]; intros Hall He K.
  - eapply same_emis_covered; [done| |done]. intros p l. destruct Hs as (_ & H2 & H3 & _). unfold owed, buacc, buidx, bidx. rewrite H2, H3.
    apply sumz_ext. intros v _. by rewrite (get_ub_same _ _ _ _ Hu).
  - intros q l Hl. pose proof (b_emissions_covered _ _ _ _ _ _ _ H Hf He K q l Hl).
    assert (n = 0) as ->; [|destruct (p =? q); lia].
    destruct (bs_ecfg (x_bs x) !! p) eqn:Ec; [|by apply b_emissions_none in H as [-> _]].
    eapply b_emissions_some in H as (d & d' & ue & _ & _ & _ & _ & _ & _ & Hn); [done|done|]. by eapply He.
  - intros q l Hl. pose proof (b_emissions_covered _ _ _ _ _ _ _ H Hf He K q l Hl) as Hx.
    unfold claimed_by in *. simpl. change (owed (add_log (EvBClaim p u n) x') q l) with (owed x' q l).
    change (remain (add_log (EvBClaim p u n) x') q) with (remain x' q). destruct (p =? q); lia.
  - eapply same_emis_covered; [done| |done]. intros q l. destruct Hs as (_ & H2 & H3 & _). unfold owed.
    apply sumz_ext. intros v _.
    assert (buacc x' q v = buacc x q v /\ buidx x' q v = buidx x q v /\ bidx x' q = bidx x q) as (-> & -> & ->).
    { unfold buacc, buidx, bidx. by rewrite H2, H3. }
    rewrite (get_ub_upd _ _ _ _ _ _ _ Hu). case_bool_decide as Hpu; [|done]. destruct Hpu as [-> ->].
    destruct (Hok (Hall _)) as [->| ->]; lia.
  - assert (covered (add_log (EvAlloc p np nb) x1)) as K1.
    2:{ intros q l Hl. specialize (K1 q l Hl). destruct Hs as (S1 & S2 & S3 & S4). destruct (S4 q) as [S5 S6].
        assert (owed (add_log (EvAlloc p np nb) x') q l = owed (add_log (EvAlloc p np nb) x1) q l) as ->.
        { unfold owed. apply sumz_ext. intros v _. unfold buacc, buidx, bidx. simpl. rewrite S2, S3.
          change (get_ub (add_log (EvAlloc p np nb) x') q v) with (get_ub x' q v).
          change (get_ub (add_log (EvAlloc p np nb) x1) q v) with (get_ub x1 q v). by rewrite (get_ub_same _ _ _ _ Hu). }
        assert (remain (add_log (EvAlloc p np nb) x') q = remain (add_log (EvAlloc p np nb) x1) q) as ->.
        { unfold remain. simpl. by rewrite S1, S2. }
        unfold claimed_by, alloc_dep in *. simpl in *. rewrite S5, S6. exact K1. }
    destruct (b_set_ecfg_spec _ _ _ _ _ _ H He Hnb) as (d' & -> & Hl & Hd). destruct He as (He & Hc & Ht).
    clear Hs Hu H x'.
    intros q l Hnd. specialize (K q l Hnd).
    set (x2 := add_log _ _).
    assert (claimed_by (x_log x2) q = claimed_by (x_log x) q) as -> by done.
    assert (alloc_dep (x_log x2) q = alloc_dep (x_log x) q + if p =? q then nb else 0) as ->.
    { unfold alloc_dep, x2. simpl. lia. }
    destruct (Z.eqb_spec p q) as [->|Hne].
    2:{ assert (owed x2 q l = owed x q l) as ->.
        { apply owed_ext; [|done]. unfold bidx, x2. simpl. by rewrite lookup_insert_ne. }
        assert (remain x2 q = remain x q) as ->.
        { unfold remain, x2. simpl. by rewrite !lookup_insert_ne. }
        lia. }
    assert (bidx x2 q = ed_index d') as Hb by (unfold bidx, x2; simpl; by rewrite lookup_insert).
    destruct (bs_ecfg (x_bs x) !! q) as [cfg|] eqn:Ec.
    + destruct Hd as (d & Ed & Hor). assert (0 <= ec_eps cfg) as Heps by (by eapply He). pose proof (Ht _ _ Ed) as Hlt.
      set (R := ec_eps cfg * Z.max 0 (ec_exp cfg - c_now c)) in *.
      assert (0 <= R) by (unfold R; apply Z.mul_nonneg_nonneg; lia).
      assert (remain x2 q = (nb + R) / 604800 * 604800) as Hr.
      { unfold remain, x2. simpl. rewrite !lookup_insert. simpl. rewrite Hl. rewrite Z.max_r by lia. f_equal. lia. }
      pose proof (fdiv_spec (nb + R) 604800 ltac:(lia)) as Hfl.
      assert (remain x q = ec_eps cfg * Z.max 0 (ec_exp cfg - ed_last d)) as Hr0 by (unfold remain; by rewrite Ec, Ed).
      assert (owed x2 q l + 10000000 * R <= owed x q l + 10000000 * remain x q); [|lia].
      destruct Hor as [[Hi _]|(L1 & L2 & HU & Hidx)].
      * rewrite (owed_ext x x2); [|rewrite Hb; unfold bidx; rewrite Ed; simpl; done|done]. rewrite Hr0. unfold R.
        assert (ec_eps cfg * Z.max 0 (ec_exp cfg - c_now c) <= ec_eps cfg * Z.max 0 (ec_exp cfg - ed_last d)); [|lia].
        apply Z.mul_le_mono_nonneg_l; lia.
      * assert (owed x2 q l <= owed x q l + 10000000 * ((Z.min (ec_exp cfg) (c_now c) - ed_last d) * ec_eps cfg)) as Ho.
        { eapply owed_index; [done|done|done|done|reflexivity|done|apply Z.mul_nonneg_nonneg; lia|].
          rewrite Hb, Hidx. unfold bidx. rewrite Ed. done. }
        rewrite Hr0. unfold R. rewrite (Z.max_r 0 (ec_exp cfg - ed_last d)) by lia.
        replace (Z.max 0 (ec_exp cfg - c_now c)) with (ec_exp cfg - Z.min (ec_exp cfg) (c_now c)) by lia. lia.
    + destruct (Hc q Ec) as [Hed _].
      assert (remain x2 q = (nb + 0) / 604800 * 604800) as Hr.
      { unfold remain, x2. simpl. rewrite !lookup_insert. simpl. rewrite Hl. rewrite Z.max_r by lia. f_equal. lia. }
      pose proof (fdiv_spec (nb + 0) 604800 ltac:(lia)) as Hfl.
      rewrite (owed_ext x x2); [|rewrite Hb; unfold bidx; rewrite Hed; simpl; done|done].
      assert (remain x q = 0) by (unfold remain; by rewrite Ec). lia.
Qed.

(** ** Transactions as emission moves *)
Definition own_claim (o : Op) : bool :=
  match o with OExt _ (BClaim u _ t _) => u =? t | _ => true end.
(** [u] is not credited by somebody else's claim *)
Definition not_credited (o : Op) (u : Addr) : Prop :=
  match o with OExt _ (BClaim f _ t _) => f = u \/ t <> u | _ => True end.

(** [u] claims at pool [p] *)
Definition claims_at (o : Op) (p u : Addr) : Prop := match o with OExt _ (BClaim f ps _ _) => f = u /\ p ∈ ps | _ => False end.

Lemma same_emis_refl x : same_emis x x. Proof. repeat split. Qed.
Lemma same_emis_trans x y z : same_emis x y -> same_emis y z -> same_emis x z.
Proof.
  intros (A1 & A2 & A3 & A4) (B1 & B2 & B3 & B4). split; [congruence|]. split; [congruence|]. split; [congruence|].
  intros p. destruct (A4 p), (B4 p). split; congruence.
Qed.
Definition ext_none (x x' : Ext) : Prop := same_emis x x' /\ bs_user (x_bs x') = bs_user (x_bs x).
Lemma ext_none_refl x : ext_none x x. Proof. repeat split. Qed.
Lemma ext_none_trans x y z : ext_none x y -> ext_none y z -> ext_none x z.
Proof. intros [A1 A2] [B1 B2]. split; [by eapply same_emis_trans|congruence]. Qed.
Lemma ext_none_emoves c ok em cl x x' : ext_none x x' -> emoves c ok em cl x x'.
Proof. intros [H1 H2]. apply rtc_once. by apply em_none. Qed.

Lemma free_ok_bal x x' : same_bal x x' -> free_ok x -> free_ok x'.
Proof.
  intros [H1 H2] (Hu & Hf & Hq). split; [|split].
  - intros p u b. rewrite H1. apply Hu.
  - intros p. rewrite (get_pb_same _ _ _ H2), (usum_same _ _ _ _ H1). apply Hf.
  - intros p. rewrite (get_pb_same _ _ _ H2). apply Hq.
Qed.

Lemma mint_none x t n x' : em_mint x t n = Ok x' -> ext_none x x'.
Proof. unfold em_mint. intros H. mon H. repeat split. Qed.
Lemma distr_none c x b n x' : em_execute_distribute c x b = Ok (n, x') -> ext_none x x'.
Proof.
  unfold em_execute_distribute. intros H. mon H.
  match goal with E : em_mint _ _ _ = Ok _ |- _ => apply mint_none in E; eapply ext_none_trans; [|exact E] end. repeat split.
Qed.
Lemma drop_none c x l x' : em_drop c x l = Ok x' -> ext_none x x'.
Proof.
  unfold em_drop. intros H. mon H.
  match goal with E : foldM (fun x p => em_mint _ _ _) _ _ = Ok ?y |- _ => apply (ext_none_trans _ y); [revert E|repeat split] end.
  apply (foldM_rel ext_none); [apply ext_none_refl|intros; by eapply ext_none_trans|]. intros; by eapply mint_none.
Qed.
Lemma draw_none c x p n t x' : b_draw c x p n t = Ok x' -> ext_none x x'.
Proof. unfold b_draw. intros H. mon H. repeat split. Qed.
Lemma donate_none c x f p n x' : b_donate c x f p n = Ok x' -> ext_none x x'.
Proof. unfold b_donate. intros H. mon H. repeat split. Qed.
Lemma gulp_pool_none c x p n x' : b_gulp_pool c x p = Ok (n, x') -> ext_none x x'.
Proof. unfold b_gulp_pool. intros H. mon H. repeat split. Qed.
Lemma xmoves_none c self x x' : xmoves c self x x' -> ext_none x x'.
Proof.
  induction 1 as [x|x y z H _ IH]; [apply ext_none_refl|]. eapply ext_none_trans; [|exact IH].
  destruct H; try (repeat split; fail); [by eapply draw_none|by eapply donate_none|by eapply gulp_pool_none].
Qed.

Lemma still_upd c x p u pb ub cl n x' : b_emissions c x p pb u ub cl = Ok (n, x') -> emis_nonneg x -> pb_shares pb <> 0 -> still (c_now c) x' p.
Proof.
  intros H He Hs cfg d Hc Hd. pose proof H as H'. destruct (bs_ecfg (x_bs x) !! p) as [cfg0|] eqn:Ec.
  - eapply b_emissions_some in H as (d0 & d' & ue & Ed & -> & Hor & _); [|done|by eapply He]. simpl in *. rewrite lookup_insert in Hd. injection Hd as <-.
    assert (cfg = cfg0) as -> by congruence. destruct Hor as [[-> [?|[?|[?|?]]]]|(? & _)]; [by left|right; left; lia|by right; right|done|right; left; lia].
  - apply b_emissions_none in H as [_ ->]; [|done]. congruence.
Qed.
Lemma still_other c x p pb u ub cl n x' q : b_emissions c x p pb u ub cl = Ok (n, x') -> emis_nonneg x -> q <> p -> still (c_now c) x q -> still (c_now c) x' q.
Proof. intros H He Hne S cfg d. destruct (b_emissions_other _ _ _ _ _ _ _ _ _ q H He Hne) as (-> & -> & _). apply S. Qed.

Lemma claim_loop_emoves c u ps don n m x n' m' x' ok em (cl : Addr -> Addr -> Prop) :
  (forall p, p ∈ ps -> cl p u) ->
  foldM (claim_one c u) (n, m, x) ps = Ok (n', m', x') -> free_ok x -> emis_nonneg x -> cfg_ok x -> time_ok (c_now c) x ->
  (forall p, p ∈ don -> uptodate x p u /\ (em p \/ still (c_now c) x p)) -> (forall p, pb_shares (get_pb x p) = 0 -> em p) ->
  emoves c ok em cl x x' /\ same_bal x x' /\ forall p, p ∈ don ++ ps -> uptodate x' p u /\ (em p \/ still (c_now c) x' p).
Proof.
  revert don n m x. induction ps as [|p ps IH]; simpl; intros don n m x Hcl H Hf He Hc Ht Hd Hem.
  { mon H. rewrite app_nil_r. split; [apply rtc_refl|]. split; [by split|done]. }
  apply bind_ok in H as ([[n1 m1] x1] & H1 & H). unfold claim_one in H1.
  apply bind_ok in H1 as ([a x2] & E & H1). mon1 H1. apply Ok_inj in H1. simplify_eq.
  pose proof (emis_frame_fields _ _ (emis_frame_b _ _ _ _ _ _ _ _ _ E)) as (Hsb & _).
  assert (einv (c_now c) x2) as (He2 & Hc2 & Ht2).
  { eapply b_emissions_einv; [exact E|by apply users_get, Hf|by split]. }
  assert (free_ok (add_log (EvBClaim p u a) x2)) as Hf2 by (eapply (free_ok_bal x2); [by split|]; by eapply free_ok_bal).
  apply (IH (don ++ [p])) in H as (Q1 & Q2 & Q3); [|intros q Hq; apply Hcl; by right|done|done|done|done| |].
  3:{ intros q Hq. apply Hem. change (get_pb (add_log (EvBClaim p u a) x2) q) with (get_pb x2 q) in Hq. destruct Hsb as [_ Hsb]. by rewrite (get_pb_same _ _ q Hsb) in Hq. }
  - split; [|split].
    + eapply rtc_l; [eapply em_claim; [apply Hcl; by left|done|exact E]|exact Q1].
    + destruct Hsb, Q2. split; simpl in *; congruence.
    + intros q Hq. apply Q3. by rewrite <- app_assoc.
  - intros q Hq. assert (uptodate x2 q u /\ (em q \/ still (c_now c) x2 q)); [|done]. destruct (decide (q = p)) as [->|Hne].
    + split; [eapply uptodate_upd; [exact E|done|]; intros Hn; by apply cfg_ok_uptodate|].
      destruct (decide (pb_shares (get_pb x p) = 0)); [left; auto|]. right. by eapply still_upd.
    + destruct (Hd q) as [D1 D2]; [set_solver|]. split.
      * destruct (b_emissions_other _ _ _ _ _ _ _ _ _ q E He Hne) as (O1 & O2 & O3). unfold uptodate, buidx, bidx. rewrite O2, O3. exact D1.
      * destruct D2; [by left|]. right. by eapply still_other.
Qed.

Lemma claim_deps_emoves c n lp m t ps x x' (ok em : Addr -> Prop) cl :
  foldM (claim_dep n lp m t) x ps = Ok x' -> (ok t -> forall p, p ∈ ps -> uptodate x p t) -> (forall p, p ∈ ps -> em p \/ still (c_now c) x p) -> emoves c ok em cl x x'.
Proof.
  revert x. induction ps as [|p ps IH]; simpl; intros x H Hu Hst; mon1 H; [subst; apply rtc_refl|].
  unfold claim_dep in E. mon E. eapply rtc_l; [|apply IH; [exact H| |]].
  - eapply (em_bal _ _ _ _ _ _ p t); [repeat split|done| |]. { intros Hok. right. apply Hu; [done|set_solver]. } right. apply Hst. set_solver.
  - intros Hok q Hq. apply (Hu Hok). set_solver.
  - intros q Hq. apply Hst. set_solver.
Qed.

Lemma exec_emoves w o out w' :
  exec w o = Ok (out, w') -> free_ok (w_ext w) -> einv (w_now w) (w_ext w) ->
  (forall p, 0 <= pb_q4w (get_pb (w_ext w) p) <= pb_shares (get_pb (w_ext w) p) /\ 0 <= pb_tokens (get_pb (w_ext w) p)) ->
  emoves (ctx w (sig_of o)) (not_credited o) (fun p => usum ub_shares (w_ext w) p = 0) (claims_at o) (w_ext w) (w_ext w').
Proof.
  intros H Hf Hei Hpb.
  remember (fun p => usum ub_shares (w_ext w) p = 0) as em eqn:Eem. assert (forall p, pb_shares (get_pb (w_ext w) p) = 0 -> em p) as Hem.
  { intros p Hp. rewrite Eem. destruct Hf as [_ [Hf _]]. rewrite <- Hf. specialize (Hpb p). lia. }
  clear Eem. unfold exec in H. destruct o as [sg o|sg a o|sg ad sa orc ra mp|b|dt ds|orc|n|b t u|b r|].
  2:{ mon H. simpl. apply p_exec_xmoves in E0. simpl in E0. apply ext_none_emoves. by eapply xmoves_none. }
  2:{ mon H. destruct (w_pools w !! _); [done|]. mon H. apply ext_none_emoves. repeat split. }
  2:{ mon H. destruct (w_pools w !! _); [done|]. mon H. apply ext_none_emoves. repeat split. }
  2-7: mon H; apply ext_none_emoves; repeat split.
  mon H. simpl in *. pose proof Hei as (He & Hc & Ht).
  assert (forall x p u n x' pb ub xf, b_emissions (ctx w sg) x p (get_pb x p) u (get_ub x p u) false = Ok (n, x') -> x = w_ext w ->
    bs_user (x_bs xf) = <[(p, u) := ub]> (bs_user (x_bs x')) -> bs_pool (x_bs xf) = <[p := pb]> (bs_pool (x_bs x')) ->
    same_emis x' xf -> forall o, emoves (ctx w sg) (not_credited o) em (claims_at o) (w_ext w) xf) as Hup.
  { intros x p u n x' pb ub xf Hb -> Hu Hp Hs oo. eapply rtc_l; [eapply em_upd; [done|exact Hb]|]. apply rtc_once.
    eapply em_bal; [done|exact Hu| |].
    - intros _. right. eapply uptodate_upd; [exact Hb|done|]. intros Hn. by apply cfg_ok_uptodate.
    - right. destruct (decide (pb_shares (get_pb (w_ext w) p) = 0)); [left; auto|]. right. change (w_now w) with (c_now (ctx w sg)). by eapply still_upd. }
  destruct o; simpl in E; unfold ret_unit, ret_z in E; mon E; simpl.
  - unfold em_initialize in E0. mon E0. apply ext_none_emoves. repeat split.
  - unfold em_distribute in E0. mon E0. apply ext_none_emoves. by eapply distr_none.
  - unfold em_queue_swap in E0. mon E0. apply ext_none_emoves. repeat split.
  - unfold em_cancel_swap in E0. mon E0. apply ext_none_emoves. repeat split.
  - unfold em_swap_backstop in E0. mon E0. apply ext_none_emoves.
    match goal with E : em_execute_distribute _ _ _ = Ok _ |- _ => apply distr_none in E; eapply ext_none_trans; [exact E|] end. repeat split.
  - apply ext_none_emoves. by eapply drop_none.
  - unfold fa_initialize in E0. mon E0. apply ext_none_emoves. repeat split.
  - unfold b_initialize in E0. mon E0. apply ext_none_emoves. repeat split.
  - unfold b_deposit in E0. mon E0. match goal with E : b_emissions _ _ _ _ _ _ _ = Ok _ |- _ => eapply (Hup _ _ _ _ _ _ _ _ E); done end.
  - unfold b_queue in E0. mon E0. match goal with E : b_emissions _ _ _ _ _ _ _ = Ok _ |- _ => eapply (Hup _ _ _ _ _ _ _ _ E); done end.
  - unfold b_dequeue in E0. mon E0. match goal with E : b_emissions _ _ _ _ _ _ _ = Ok _ |- _ => eapply (Hup _ _ _ _ _ _ _ _ E); done end.
  - unfold b_withdraw in E0. mon E0. apply rtc_once. eapply (em_bal _ _ _ _ _ _ pool from); [repeat split|done| |]; [intros _|]; left;
    match goal with E : ub_dequeue _ _ _ _ = Ok _ |- _ => unfold ub_dequeue in E; mon E end; done.
  - apply ext_none_emoves. by eapply draw_none.
  - apply ext_none_emoves. by eapply donate_none.
  - unfold b_update_tkn_val in E0. mon E0. apply ext_none_emoves. repeat split.
  - unfold b_drop in E0. mon E0. apply ext_none_emoves. by eapply drop_none.
  - unfold b_add_reward in E0. mon E0. destruct (_ <? _); mon E0; apply ext_none_emoves; repeat split.
  - unfold b_gulp in E0. mon E0.
    match goal with E : foldM (gulp_one _ _ _ _) ?y _ = Ok _ |- _ => eapply (rtc_transitive _ y); [apply ext_none_emoves; repeat split|]; rename E into Eg;
      assert (free_ok y) as Hfy by (eapply free_ok_bal; [|exact Hf]; by split) end.
    match goal with E : gulp_sum ?y _ = Ok _ |- _ => assert (forall p, 0 <= pb_q4w (get_pb y p) <= pb_shares (get_pb y p) /\ 0 <= pb_tokens (get_pb y p)) as Hpy by exact Hpb end.
    assert (0 <= dt) as Hdt by (match goal with E : u64 (_ - _) = Ok dt |- _ => apply u64_ok in E as [? ?]; vals; lia end).
    assert (0 <= tot_bs) as Htb.
    { match goal with E : fmul_floor _ 7000000 _ = Ok _ |- _ => apply fmul_floor_ok in E as [-> _]; [|by vals] end.
      match goal with E : i128 (dt * _) = Ok _ |- _ => apply i128_ok in E as [-> _] end.
      vals. apply Z.div_pos; lia. }
    match type of Eg with foldM _ ?y _ = _ => generalize dependent y end. intros y Es Eg Hfy Hpy.
    assert (0 <= total) as Htot.
    { unfold gulp_sum in Es. eapply (foldM_inv (fun s => 0 <= s)) in Es; [done| |lia].
      clear -Hpy. intros s q s' _ Hs Hq. mon1 Hq. apply i128_ok in Hq as [-> _]. destruct (Hpy q) as [P1 P2].
      match goal with E : non_queued _ = Ok _ |- _ => rename E into En end.
      unfold non_queued, to_tokens in En. mon En. apply i128_ok in En as [-> _].
      destruct (pb_shares (get_pb y q) =? 0) eqn:Ez.
      - match goal with E : Ok _ = Ok _ |- _ => injection E as <- end. lia.
      - match goal with E : fmul_floor _ _ _ = Ok _ |- _ => apply fmul_floor_ok in E as [-> _]; [|lia] end.
        assert (pb_q4w (get_pb y q) * pb_tokens (get_pb y q) / pb_shares (get_pb y q) <= pb_tokens (get_pb y q)); [|lia].
        apply Z.div_le_upper_bound; [lia|]. nia. }
    clear Es. revert y Eg Hfy Hpy. generalize (bs_rz (x_bs (w_ext w))). intros l. induction l as [|q l IH]; simpl; intros y Eg Hfy Hpy.
    { mon Eg. apply rtc_refl. }
    mon1 Eg. match goal with E : gulp_one _ _ _ _ _ _ = Ok _ |- _ => rename E into Eo end. unfold gulp_one in Eo. mon Eo.
    match goal with E : b_set_ecfg _ ?y1 _ _ _ = Ok ?y2 |- _ =>
      assert (free_ok y1) as Hf1 by (eapply free_ok_bal; [|exact Hfy]; by split);
      pose proof (b_set_ecfg_fields _ _ _ _ _ _ E) as ([Hb1 Hb2] & _) end.
    destruct (Hpy q) as [P1 P2].
    assert (0 <= nb) as Hnb.
    { match goal with E : fmul_floor share tot_bs _ = Ok nb |- _ => apply fmul_floor_ok in E as [-> _]; [|by vals] end.
      match goal with E : fdiv_floor _ total _ = Ok share |- _ => rename E into Efd end.
      destruct (decide (total = 0)) as [->|Htz].
      { exfalso. unfold fdiv_floor, div_floor in Efd. mon1 Efd. discriminate. }
      apply fdiv_floor_ok in Efd as [-> _]; [|lia]. vals.
      match goal with E : non_queued _ = Ok ?k |- _ => assert (0 <= k) as Hk end.
      { match goal with E : non_queued _ = Ok _ |- _ => unfold non_queued, to_tokens in E; mon E; apply i128_ok in E as [-> _] end.
        destruct (pb_shares (get_pb y q) =? 0) eqn:Ez.
        - match goal with E : Ok _ = Ok _ |- _ => injection E as <- end. lia.
        - match goal with E : fmul_floor (pb_q4w _) _ _ = Ok _ |- _ => apply fmul_floor_ok in E as [-> _]; [|lia] end.
          assert (pb_q4w (get_pb y q) * pb_tokens (get_pb y q) / pb_shares (get_pb y q) <= pb_tokens (get_pb y q)); [|lia].
          apply Z.div_le_upper_bound; [lia|]. nia. }
      apply Z.div_pos; [|lia]. apply Z.mul_nonneg_nonneg; [|lia]. apply Z.div_pos; lia. }
    eapply rtc_l; [|eapply rtc_l; [eapply em_alloc; [exact Hf1|exact Hnb|eassumption|apply same_emis_refl|done]|apply IH; [exact Eg| |]]].
    + apply em_none; repeat split.
    + eapply free_ok_bal; [|exact Hf1]. split; [exact Hb1|exact Hb2].
    + intros p. match goal with |- context [get_pb (add_log ?e ?z) p] => change (get_pb (add_log e z) p) with (get_pb z p) end. rewrite (get_pb_same _ _ _ Hb2). apply Hpy.
  - apply ext_none_emoves. by eapply gulp_pool_none.
  - unfold b_claim in E0. mon1 E0. mon1 E0. apply bind_ok in E0 as ([[n1 m1] x1] & H1 & H2).
    apply (claim_loop_emoves _ _ _ [] _ _ _ _ _ _ (not_credited (OExt sg (BClaim from pools to lp_out))) em (claims_at (OExt sg (BClaim from pools to lp_out)))) in H1 as (Q1 & Q2 & Q3); [|by intros p Hp|done|done|done|done|set_solver|done].
    destruct (0 <? n1); mon H2; [|done].
    eapply rtc_transitive; [exact Q1|]. 
    match goal with E : foldM _ ?y _ = Ok _ |- _ => eapply (rtc_transitive _ y); [apply ext_none_emoves; repeat split|eapply claim_deps_emoves; [exact E| |]] end.
    { intros Hok p Hp. simpl in Hok. assert (from = to) as -> by (destruct Hok; [done|congruence]). apply Q3. done. }
    intros p Hp. apply Q3. done.
  - apply ext_none_emoves. repeat split.
  - apply ext_none_emoves. repeat split.
  - apply ext_none_emoves. repeat split.
  - apply ext_none_emoves. repeat split.
  - apply ext_none_emoves. repeat split.
Qed.
