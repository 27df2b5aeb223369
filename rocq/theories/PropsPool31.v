(** * Earned pool emissions can be claimed (C73): what users have earned is covered by what the pool has received *)
From Verif Require Import Base Types Token Emitter Factory Backstop PoolReserve PoolUser PoolHealth
  PoolAuction PoolSubmit PoolEmis PoolAdmin World Facts XMove Spec FrameFacts PoolFrame PoolCfg PoolAccrue PoolTrace PoolInv AuctionFacts
  PoolSim PoolReq PoolHF PoolOps PoolLiq PoolReach PoolTx PoolEmisInv PoolEmisTx PropsAdmin PropsBackstop PropsPool10 PoolLive.

Lemma claimed_err w a o e : exec w o = Err e -> pool_claimed a w o w = 0 /\ pool_gulped a w o w = 0.
Proof.
  intros E. unfold pool_claimed, pool_gulped, returned. rewrite E. split; destruct o as [|? b po| | | | | | | |]; try done; destruct po; try done; by destruct (b =? a).
Qed.

(** [c] has been claimed and [g] received *)
Definition eleft (a : Addr) (w : World) (c g : Z) : Prop :=
  (ps_init (pool w a) = false -> c = 0 /\ g = 0) /\
  (ps_init (pool w a) = true -> exists D, ecovered D (pool w a) /\ c + msum D <= g).
Lemma eleft_step a w o out w' c g : reachable w -> exec w o = Ok (out, w') -> eleft a w c g ->
  eleft a w' (c + pool_claimed a w o w') (g + pool_gulped a w o w').
Proof.
  intros Hr E [L1 L2]. pose proof (reachable_emis _ a Hr) as K. pose proof (step_effect _ a _ _ _ Hr K E) as (K1 & Hfresh & Hz & Hst).
  pose proof (reachable_step _ _ _ _ Hr E) as Hr1. destruct (ps_init (pool w a)) eqn:Ei.
  - destruct (Hst eq_refl) as (Hi1 & Hcase). split; [congruence|]. intros _. destruct (L2 eq_refl) as (D & V & HD).
    destruct Hcase as [(Hno & S)|(sg & po & -> & _ & (_ & Hef & _))].
    + assert (pool_claimed a w o w' = 0 /\ pool_gulped a w o w' = 0) as [-> ->].
      { destruct o as [|sg b po| | | | | | | |]; try done. assert (b <> a) as Hne by (intros ->; by eapply Hno). apply Z.eqb_neq in Hne.
        unfold pool_claimed, pool_gulped. rewrite Hne. by destruct po. }
      exists D. split; [by eapply same_view_covered|lia].
    + destruct (Hef D V) as (D' & V' & Hm). destruct (returned_out _ _ _ _ _ _ E) as [<- <-]. exists D'. split; [done|lia].
  - destruct (Hz eq_refl) as [-> ->]. rewrite !Z.add_0_r. destruct (L1 eq_refl) as [-> ->]. split; [done|]. intros Hi1.
    destruct (Hfresh Hi1 eq_refl) as (_ & _ & F1 & F2 & F3). exists ∅. split; [|by vm_compute].
    eapply ecovered_empty; [exact K1|done|intros; unfold getz; by rewrite lookup_empty|].
    intros j. apply tok_unit_pos. by apply reachable_good.
Qed.
Lemma eleft_run a w0 l : initial w0 -> eleft a (run w0 l) (sumh (pool_claimed a) w0 l) (sumh (pool_gulped a) w0 l).
Proof.
  intros Hi. induction l as [|o l IH] using rev_ind.
  - destruct Hi as (? & ? & ? & ? & ? & -> & _). unfold eleft, pool; simpl. rewrite lookup_empty. simpl. done.
  - rewrite !sumh_app, run_snoc. simpl. rewrite !Z.add_0_r.
    assert (reachable (run w0 l)) as Hr by (by exists w0, l).
    unfold step. destruct (exec (run w0 l) o) as [[out w']|] eqn:E; [by eapply eleft_step|].
    destruct (claimed_err _ a _ _ E) as [-> ->]. by rewrite !Z.add_0_r.
Qed.

(** what users can claim on a token now is covered *)
Lemma covered_claims now p D id l : good p -> emis_ok now p -> ecovered D p -> NoDup l ->
  sumz (fun u => claimable now p u id) l <= getz D id.
Proof.
  intros G K V Hl. pose proof (tok_unit_pos p id G) as Hu.
  assert (exists p', tok_unit p' id = tok_unit p id /\ (forall u, tok_bal p' u id = tok_bal p u id /\ puacc p' u id = puacc p u id /\ puidx p' u id = puidx p u id) /\
    pidx p' id = index_at now p id /\ eowed p' id l + tok_unit p id * eremain p' id <= eowed p id l + tok_unit p id * eremain p id /\ 0 <= eremain p' id) as (p' & U & B & I & C & R).
  { destruct (ps_ecfg p !! id) as [cfg|] eqn:Ec.
    - destruct (eo_eps _ _ K _ _ Ec) as (Heps & Ha & [d Ed]). 
      set (e := mkEmisData (index_at now p id) (Z.max (ed_last d) (Z.min (ec_exp cfg) now))).
      destruct (decide (ed_last d < Z.min (ec_exp cfg) now)) as [Hlt|Hge].
      + exists (set_edata p id e). split; [done|]. split; [done|]. split; [unfold pidx, set_edata; simpl; by rewrite lookup_insert|]. split.
        * eapply index_covered; try done. right. simpl. lia.
        * unfold eremain, set_edata. simpl. rewrite Ec, lookup_insert. apply Z.mul_nonneg_nonneg; lia.
      + exists p. split; [done|]. split; [done|]. split; [|split; [lia|]].
        * unfold pidx, index_at. rewrite Ec, Ed. simpl. destruct (_ =? 0); [done|]. rewrite Z.max_l by lia. rewrite !Z.mul_0_l, Zdiv_0_l. lia.
        * unfold eremain. rewrite Ec, Ed. apply Z.mul_nonneg_nonneg; lia.
    - exists p. split; [done|]. split; [done|]. split; [unfold index_at; by rewrite Ec|]. split; [lia|]. unfold eremain. by rewrite Ec. }
  specialize (V id l Hl).
  assert (tok_unit p id * sumz (fun u => claimable now p u id) l <= eowed p' id l) as Hle.
  { unfold eowed. rewrite <- sumz_mul. apply sumz_le. intros u _. destruct (B u) as (-> & -> & ->). rewrite U, I. unfold claimable.
    pose proof (Z.mul_div_le (tok_bal p u id * (index_at now p id - puidx p u id)) (tok_unit p id) Hu). lia. }
  assert (0 <= tok_unit p id * eremain p' id) by (apply Z.mul_nonneg_nonneg; lia).
  apply (Z.mul_le_mono_pos_l _ _ (tok_unit p id) Hu). lia.
Qed.
Lemma getz_list_le (D : gmap Z Z) : (forall j, 0 <= getz D j) -> forall ids, NoDup ids -> sumz (getz D) ids <= msum D.
Proof.
  intros HD ids Hn. revert D HD. induction ids as [|i ids IH]; intros D HD.
  - rewrite sumz_nil. unfold msum. apply sumz_nonneg. intros [j v] Hj. apply elem_of_map_to_list in Hj. simpl. specialize (HD j). unfold getz in HD. by rewrite Hj in HD.
  - apply NoDup_cons in Hn as [Hi Hn]. rewrite sumz_cons. pose proof (msum_insert D i 0) as Hm.
    assert (forall j, 0 <= getz (<[i := 0]> D) j) as HD' by (intros j; unfold getz; destruct (decide (i = j)) as [->|]; [by rewrite lookup_insert|rewrite lookup_insert_ne by done; apply HD]).
    specialize (IH Hn _ HD'). assert (sumz (getz (<[i := 0]> D)) ids = sumz (getz D) ids) as Heq.
    { apply sumz_ext. intros j Hj. unfold getz. rewrite lookup_insert_ne; [done|]. intros ->. done. }
    lia.
Qed.

(** ** C73: earned emissions are covered *)
(** In every history, for every pool: what has been claimed so far plus what any users could claim now on any of the pool's tokens is
    at most what the pool has received from the backstop. *)
Theorem C73_earned_is_covered : forall w0 l a users ids,
  initial w0 -> NoDup users -> NoDup ids ->
  let w := run w0 l in
  ps_init (pool w a) = true ->
  sumh (pool_claimed a) w0 l + sumz (fun id => sumz (fun u => claimable (w_now w) (pool w a) u id) users) ids <= sumh (pool_gulped a) w0 l.
Proof.
  intros w0 l a users ids Hi Hu Hd w Hp. destruct (eleft_run a w0 l Hi) as [_ L]. fold w in L. destruct (L Hp) as (D & V & HD).
  assert (reachable w) as Hr by (by exists w0, l). pose proof (reachable_good _ a Hr Hp) as G. pose proof (reachable_emis _ a Hr) as K.
  assert (sumz (fun id => sumz (fun u => claimable (w_now w) (pool w a) u id) users) ids <= sumz (getz D) ids) as H1.
  { apply sumz_le. intros id _. by apply covered_claims. }
  pose proof (getz_list_le D (fun j => ecovered_nonneg _ _ _ j G K V) ids Hd). lia.
Qed.
