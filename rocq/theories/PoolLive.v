(** * When the functions of the pool succeed

    Lemmas that a computation does not fail, given that its arithmetic stays within the
    128-bit integers.  Used for the liveness properties (C27, C55). *)
From Verif Require Import Base Types Token Emitter Factory Backstop PoolReserve PoolUser PoolHealth
  PoolAuction PoolSubmit PoolEmis PoolAdmin World Facts XMove Spec PoolFrame PoolCfg PoolAccrue PoolTrace PoolInv AuctionFacts
  PoolSim PoolReq PoolHF PoolOps PoolLiq PoolReach PoolTx PoolEmisInv PropsBackstop5 PropsPool1 PropsPool3 PropsPool9 PropsPool10.

(** ** Arithmetic *)
Lemma fdiv_floor_fits x y d : 0 <= x * d <= i128_max -> 0 < y -> fdiv_floor x y d = Ok (x * d / y).
Proof. intros H Hy. exact (fmul_floor_fits x d y H Hy). Qed.
Lemma fmul_ceil_fits' x y d : 0 <= x * y <= i128_max -> 0 < d -> fmul_ceil x y d = Ok (cdiv (x * y) d).
Proof. intros H Hd. destruct (fmul_ceil_fits x y d H Hd) as (v & -> & ->). done. Qed.
Lemma fdiv_ceil_fits x y d : 0 <= x * d <= i128_max -> 0 < y -> fdiv_ceil x y d = Ok (cdiv (x * d) y).
Proof. intros H Hy. exact (fmul_ceil_fits' x d y H Hy). Qed.
Lemma i128_ok_nonneg x : 0 <= x <= i128_max -> i128 x = Ok x.
Proof. intros H. apply i128_fits. unfold i128_min. lia. Qed.

(** ** Emissions *)
(** seconds of the stream not distributed yet *)
Definition undistributed (now : Z) (cfg : EmisConfig) (d : EmisData) : Z := Z.max 0 (Z.min (ec_exp cfg) now - ed_last d).
Lemma update_edata_total now q id s sc cfg d :
  ps_edata q !! id = Some d -> ed_last d <= now -> 0 <= s -> 0 < sc -> 0 <= ec_eps cfg -> 0 <= ed_index d ->
  let dt := undistributed now cfg d in
  dt <= u64_max -> dt * ec_eps cfg * sc <= i128_max -> (s <> 0 -> ed_index d + dt * ec_eps cfg * sc / s <= i128_max) ->
  exists d', update_edata now q id s sc cfg = Ok (d', set_edata q id d').
Proof.
  intros Ed Hl Hs Hsc He Hi dt F1 F2 F3. unfold update_edata. rewrite Ed. cbn [unwrap bind].
  destruct (_ || _) eqn:Ec; [exists d; by rewrite set_edata_id|]. rewrite !orb_false_iff in Ec. destruct Ec as (((C1 & C2) & C3) & C4).
  apply Z.leb_gt in C1. apply Z.eqb_neq in C2, C3, C4.
  assert ((if ec_exp cfg <? now then ec_exp cfg else now) = Z.min (ec_exp cfg) now) as -> by (destruct (Z.ltb_spec (ec_exp cfg) now); lia).
  assert (Z.min (ec_exp cfg) now - ed_last d = dt) as -> by (unfold dt, undistributed; lia).
  assert (0 <= dt) by (unfold dt, undistributed; lia). specialize (F3 C4). clearbody dt.
  assert (0 <= dt * ec_eps cfg) as Hm by nia. assert (0 <= dt * ec_eps cfg * sc) as Hm2 by nia.
  rewrite u64_fits by done. cbn [bind]. rewrite i128_ok_nonneg by nia. cbn [bind].
  rewrite fdiv_floor_fits by lia. cbn [bind]. pose proof (Z.div_pos (dt * ec_eps cfg * sc) s ltac:(lia) ltac:(lia)).
  rewrite i128_ok_nonneg by lia. cbn [bind]. eauto.
Qed.
Lemma update_user_total q d id sc u bal :
  0 < sc -> 0 <= bal -> 0 <= puidx q u id <= ed_index d -> 0 <= puacc q u id -> ed_index d <= i128_max -> bal * ed_index d <= i128_max ->
  puacc q u id + bal * (ed_index d - puidx q u id) / sc <= i128_max ->
  exists n q', update_user_emis q d id sc u bal false = Ok (n, q').
Proof.
  intros Hsc Hb Hi Ha F1 F2 F3. unfold update_user_emis. unfold puidx, puacc in *.
  destruct (ps_uemis q !! (u, id)) as [ud|]; simpl in *.
  - destruct (negb _ || false); [|eauto]. destruct (bal =? 0); [eauto|].
    rewrite i128_ok_nonneg by lia. cbn [bind]. unfold p_nonneg. rewrite (proj2 (Z.ltb_ge _ 0)) by lia. cbn [bind].
    rewrite fmul_floor_fits by nia. cbn [bind]. pose proof (Z.div_pos (bal * (ed_index d - ue_index ud)) sc ltac:(nia) Hsc).
    rewrite i128_ok_nonneg by lia. cbn [bind]. eauto.
  - destruct (bal =? 0); [eauto|]. rewrite fmul_floor_fits by nia. cbn [bind]. eauto.
Qed.

(** the emission arithmetic of token [id] and user [u] of pool [p] stays within the
    128-bit integers *)
Definition emis_fits (now : Z) (p : PoolSt) (u : Addr) (id : Z) : Prop :=
  forall cfg d, ps_ecfg p !! id = Some cfg -> ps_edata p !! id = Some d ->
    let dt := undistributed now cfg d in
    dt <= u64_max /\ dt * ec_eps cfg * tok_unit p id <= i128_max /\ index_at now p id <= i128_max /\
    tok_bal p u id * index_at now p id <= i128_max /\ claimable now p u id <= i128_max.

(** [q] and [p] look the same to an emission update of token [id] for [u] *)
Definition same_emis_at (p q : PoolSt) (u : Addr) (id : Z) : Prop :=
  ps_ecfg q !! id = ps_ecfg p !! id /\ ps_edata q !! id = ps_edata p !! id /\ ps_uemis q !! (u, id) = ps_uemis p !! (u, id).
(** the emission data of [q] after an update of [id] for [u] *)
Definition updated (now : Z) (p q : PoolSt) (u : Addr) (id : Z) (q' : PoolSt) : Prop :=
  (ps_ecfg p !! id = None /\ q' = q) \/
  exists cfg e ue, ps_ecfg p !! id = Some cfg /\ q' = set_uemis (set_edata q id e) u id ue /\ ed_index e = index_at now p id /\
    (ec_exp cfg <= ed_last e \/ now = ed_last e \/ ec_eps cfg = 0 \/ tok_supply p id = 0).

Lemma emissions_total now p q u id bal :
  good p -> emis_ok now p -> emis_fits now p u id -> same_emis_at p q u id -> bal = tok_bal p u id ->
  exists n q', p_emissions now q id (tok_supply p id) (tok_unit p id) u bal false = Ok (n, q') /\ updated now p q u id q'.
Proof.
  intros G K F (S1 & S2 & S3) ->. unfold p_emissions. rewrite S1. destruct (ps_ecfg p !! id) as [cfg|] eqn:Ec; [|exists 0, q; split; [done|by left]].
  destruct (eo_eps _ _ K _ _ Ec) as (Heps & Ha & [d Ed]). destruct (eo_idx _ _ K _ _ Ed) as [Hi Hl].
  destruct (F cfg d Ec Ed) as (F1 & F2 & F3 & F4 & F5). cbv zeta in *.
  pose proof (tok_unit_pos p id G) as Hu. pose proof (tok_list p id [] G Ha ltac:(constructor)) as Hs. rewrite sumz_nil in Hs.
  pose proof (tok_bal_nonneg p u id G) as Hb. pose proof (puidx_range now p u id K) as Hx. pose proof (puacc_nonneg now p u id K) as Hacc.
  pose proof (pidx_le_index_at now now p id K G) as Hle.
  destruct (update_edata_total now q id (tok_supply p id) (tok_unit p id) cfg d) as [d' E]; try done; [by rewrite S2|..].
  { intros Hn. unfold index_at in F3. rewrite Ec, Ed, (proj2 (Z.eqb_neq _ _) Hn) in F3. exact F3. }
  rewrite E. cbn [bind]. pose proof (update_edata_spec _ _ _ _ _ _ _ _ E Hs Heps) as (d0 & Ed0 & _ & Hor).
  rewrite S2, Ed in Ed0. injection Ed0 as <-.
  assert (ed_index d' = index_at now p id) as Hia.
  { unfold index_at. rewrite Ec, Ed. destruct (tok_supply p id =? 0) eqn:Ez.
    - destruct Hor as [[-> _]|(_ & _ & _ & _ & ? & _)]; [done|lia].
    - destruct Hor as [[-> Hz]|(? & ? & ? & ? & ? & ->)].
      + assert (Z.max 0 (Z.min (ec_exp cfg) now - ed_last d) * ec_eps cfg = 0) as ->.
        { destruct Hz as [?|[?|[->|?]]]; [..|lia|lia]; [rewrite Z.max_l by lia; lia|rewrite Z.max_l by lia; lia]. }
        rewrite Z.mul_0_l, Zdiv_0_l. lia.
      + rewrite Z.max_r by lia. done. }
  assert (puidx (set_edata q id d') u id = puidx p u id /\ puacc (set_edata q id d') u id = puacc p u id) as [P1 P2].
  { unfold puidx, puacc, set_edata. simpl. by rewrite S3. }
  destruct (update_user_total (set_edata q id d') d' id (tok_unit p id) u (tok_bal p u id)) as (n & q' & E2); rewrite ?P1, ?P2, ?Hia; try done; try lia.
  rewrite E2. exists n, q'. split; [done|]. right. apply update_user_emis_spec in E2 as (_ & _ & ->); [|done].
  eexists cfg, d', _. split; [done|]. split; [done|]. split; [done|].
  destruct Hor as [[-> Hz]|(-> & ? & ? & _)]; [tauto|]. destruct (Z.min_spec (ec_exp cfg) now); lia.
Qed.

(** once an index is up to date, the supply does not matter *)
Lemma emissions_again now p q u v id supply bal :
  good p -> emis_ok now p -> emis_fits now p v id -> tok_supply p id <> 0 -> 0 <= supply ->
  (ps_ecfg p !! id = None /\ ps_ecfg q !! id = None) \/
    (exists cfg e, ps_ecfg p !! id = Some cfg /\ ps_ecfg q !! id = Some cfg /\ ps_edata q !! id = Some e /\ ed_index e = index_at now p id /\
      (ec_exp cfg <= ed_last e \/ now = ed_last e \/ ec_eps cfg = 0)) ->
  u <> v -> ps_uemis q !! (v, id) = ps_uemis p !! (v, id) -> bal = tok_bal p v id ->
  exists n q', p_emissions now q id supply (tok_unit p id) v bal false = Ok (n, q') /\ updated now p q v id q'.
Proof.
  intros G K F Hsup Hs0 Hq Huv S3 ->. unfold p_emissions. destruct Hq as [[E1 E2]|(cfg & e & E1 & E2 & E3 & Hidx & Hset)].
  { rewrite E2. exists 0, q. split; [done|by left]. }
  rewrite E2. destruct (eo_eps _ _ K _ _ E1) as (Heps & Ha & [d Ed]). destruct (eo_idx _ _ K _ _ Ed) as [Hi Hl].
  destruct (F cfg d E1 Ed) as (F1 & F2 & F3 & F4 & F5). cbv zeta in *.
  pose proof (tok_unit_pos p id G) as Hu.
  pose proof (tok_bal_nonneg p v id G) as Hb. pose proof (puidx_range now p v id K) as Hx. pose proof (puacc_nonneg now p v id K) as Hacc.
  pose proof (pidx_le_index_at now now p id K G) as Hle.
  unfold update_edata. rewrite E3. cbn [unwrap bind].
  assert ((ec_exp cfg <=? ed_last e) || (now =? ed_last e) || (ec_eps cfg =? 0) || (supply =? 0) = true) as ->.
  { rewrite !orb_true_iff. rewrite Z.leb_le, !Z.eqb_eq. tauto. }
  cbn [bind].
  assert (puidx q v id = puidx p v id /\ puacc q v id = puacc p v id) as [P1 P2].
  { unfold puidx, puacc. by rewrite S3. }
  destruct (update_user_total q e id (tok_unit p id) v (tok_bal p v id)) as (n & q' & E4); rewrite ?P1, ?P2, ?Hidx; try done; try lia.
  rewrite E4. exists n, q'. split; [done|]. right. apply update_user_emis_spec in E4 as (_ & _ & ->); [|done].
  eexists cfg, e, _. split; [done|]. split; [by rewrite (set_edata_id q id e)|]. split; [done|]. tauto.
Qed.
