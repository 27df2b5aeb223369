(** * Administration touches nobody's funds: C74 *)
From Verif Require Import Base Types Token Emitter Factory Backstop PoolReserve PoolUser PoolHealth
  PoolAuction PoolSubmit PoolEmis PoolAdmin World Facts XMove Spec PoolFrame PoolCfg PoolAccrue PoolTrace PoolInv AuctionFacts
  PoolSim PoolReq PoolHF PoolOps PoolLiq PoolReach PoolTx PoolEmisInv PoolEmisTx PropsAdmin BackMoves PropsPool1 PropsPool2 PropsPool3 PropsPool4 PropsPool10 PropsPool28 PropsPool30.

(** the calls by which a pool is administered *)
Definition administers (po : POp) : bool :=
  match po with
  | PSetAdmin _ | PUpdatePool _ _ | PQueueRes _ _ | PCancelRes _ | PSetRes _ | PSetStatus _ | PUpdateStatus | PSetEmis _ => true
  | _ => false
  end.
(** a call, by anybody, by which the pool at [a] is administered *)
Definition admin_call (a : Addr) (o : Op) : Prop := exists sg po, o = OPool sg a po /\ administers po = true.

Lemma admin_ext c self px po out px' : administers po = true -> p_exec c self px po = Ok (out, px') -> px_x px' = px_x px.
Proof. intros Ha H. destruct po; try discriminate; simpl in H; unfold on_pool in H; mon H; by subst. Qed.

Lemma admin_step w a o out w' : reachable w -> admin_call a o -> exec w o = Ok (out, w') ->
  w_ext w' = w_ext w /\ w_now w' = w_now w /\ w_seq w' = w_seq w /\ (forall b, b <> a -> pool w' b = pool w b) /\
  ps_pos (pool w' a) = ps_pos (pool w a) /\ ps_auct (pool w' a) = ps_auct (pool w a) /\
  (forall r d, reserve w a r = Some d -> exists d', reserve w' a r = Some d' /\ rd_b_supply d' = rd_b_supply d /\ rd_d_supply d' = rd_d_supply d /\
     rd_b_rate d <= rd_b_rate d' /\ rd_d_rate d <= rd_d_rate d' /\ rd_credit d <= rd_credit d') /\
  (forall u id, claimable (w_now w) (pool w a) u id <= claimable (w_now w) (pool w' a) u id).
Proof.
  intros Hr (sg & po & -> & Had) H. pose proof H as H0. apply exec_opool in H as (Hty & Hn & Hs & px & E & Hp & Hx & Ho).
  pose proof (admin_ext _ _ _ _ _ _ Had E) as Hxx. simpl in Hxx.
  assert (ps_init (pool w a) = true) as Hi by (apply p_exec_cfg in E as [Hi _]; by destruct po).
  pose proof (reachable_good _ a Hr Hi) as G.
  destruct (step_effect _ a _ _ _ Hr (reachable_emis _ a Hr) H0) as (_ & _ & _ & Hst). destruct (Hst Hi) as [_ [(Hno & _)|(sg' & po' & [= <- <-] & _ & (_ & _ & _ & Hcl))]]; [by destruct (Hno sg po)|].
  split; [congruence|]. split; [done|]. split; [done|]. split; [done|].
  assert (forall u id, claimable (w_now w) (pool w a) u id <= claimable (w_now w) (pool w' a) u id) as Hcl'.
  { intros u id. apply Hcl. by destruct po. }
  clear Hcl. rewrite Hp in *. unfold reserve. rewrite Hp.
  apply p_exec_data in E; [|done|done]. simpl in E. destruct E as [(Hm & _)|[(b & -> & Hb)|(_ & _ & (K1 & K2 & _ & _ & K3 & _))]].
  - by destruct po.
  - destruct Hb as (cfg' & Hrc & Hpos & Hau & _ & _ & _ & _ & _ & _ & _ & Hcase). split; [done|]. split; [done|]. split; [|done]. intros r d Hd.
    destruct Hcase as [(Hno & _ & _ & Hrd)|(cfg & d0 & d' & Hc & Hd0 & _ & _ & _ & Hac & m & _ & Hrd)]; rewrite Hrd.
    + destruct (decide (b = r)) as [->|]; [|rewrite lookup_insert_ne by done; exists d; repeat split; try done; lia].
      assert (is_Some (ps_rcfg (pool w a) !! r)) as [? ?] by (apply (gd_dom _ G); eauto). congruence.
    + destruct (decide (b = r)) as [->|]; [|rewrite lookup_insert_ne by done; exists d; repeat split; try done; lia]. rewrite lookup_insert. rewrite Hd in Hd0. injection Hd0 as <-.
      destruct (accrue_spec _ _ _ _ _ (good_rd _ _ _ G Hd) (cw_valid _ (gd_cfg _ G) _ _ Hc) (cw_rate _ (gd_cfg _ G)) Hac) as (_ & H1 & H2 & _ & H3 & H4 & H5 & H6 & _).
      eexists. split; [done|]. simpl. repeat (split; [done|]). rewrite H6.
      assert (0 <= accrued d d' * pc_bstop_rate (ps_config (pool w a)) / 10000000); [|lia]. apply Z.div_pos; [|lia]. pose proof (cw_rate _ (gd_cfg _ G)). apply Z.mul_nonneg_nonneg; lia.
  - split; [done|]. split; [done|]. split; [|done]. intros r d Hd. rewrite K1. exists d. repeat split; try done; lia.
Qed.

(** ** C74 *)
(** Whatever sequence of calls administers a pool - by its admin or by anybody, accepted or not - no token balance, no allowance and nothing in
    the backstop, the emitter or the factory changes, no other pool changes, every user keeps every position, every auction stays as it is, the
    share supplies of every reserve stay the same and its rates do not fall, and nobody loses emissions he could claim.  Unless the take rate is
    changed, the rates up to now stay exactly the same. *)
Theorem C74_administration_touches_no_funds : forall w l a, reachable w -> Forall (admin_call a) l ->
  let w' := run w l in
  w_ext w' = w_ext w /\ (forall b, b <> a -> pool w' b = pool w b) /\
  (forall u, get_pos (pool w' a) u = get_pos (pool w a) u) /\ ps_auct (pool w' a) = ps_auct (pool w a) /\
  (forall r d, reserve w a r = Some d ->
     (exists d', reserve w' a r = Some d' /\ rd_b_supply d' = rd_b_supply d /\ rd_d_supply d' = rd_d_supply d /\
        rd_b_rate d <= rd_b_rate d' /\ rd_d_rate d <= rd_d_rate d' /\ rd_credit d <= rd_credit d') /\
     (Forall (fun o => forall sg x y, o <> OPool sg a (PUpdatePool x y)) l -> b_rate_now w' a r = b_rate_now w a r /\ d_rate_now w' a r = d_rate_now w a r)) /\
  (forall u id, claimable (w_now w) (pool w a) u id <= claimable (w_now w') (pool w' a) u id).
Proof.
  intros w l a Hr Hl. cbv zeta.
  assert (w_ext (run w l) = w_ext w /\ w_now (run w l) = w_now w /\ (forall b, b <> a -> pool (run w l) b = pool w b) /\
    ps_pos (pool (run w l) a) = ps_pos (pool w a) /\ ps_auct (pool (run w l) a) = ps_auct (pool w a) /\
    (forall r d, reserve w a r = Some d -> exists d', reserve (run w l) a r = Some d' /\ rd_b_supply d' = rd_b_supply d /\ rd_d_supply d' = rd_d_supply d /\
       rd_b_rate d <= rd_b_rate d' /\ rd_d_rate d <= rd_d_rate d' /\ rd_credit d <= rd_credit d') /\
    (forall u id, claimable (w_now w) (pool w a) u id <= claimable (w_now w) (pool (run w l) a) u id)) as (A1 & A2 & A3 & A4 & A5 & A6 & A7).
  { revert w Hr. induction Hl as [|o l Ho Hl IH]; intros w Hr.
    - simpl. repeat (split; [done|]). split; [|intros; lia]. intros r d Hd. exists d. repeat split; try done; lia.
    - simpl. unfold step. destruct (exec w o) as [[out w1]|e] eqn:E; [|by apply IH].
      destruct (admin_step _ _ _ _ _ Hr Ho E) as (B1 & B2 & _ & B3 & B4 & B5 & B6 & B7).
      destruct (IH w1 (reachable_step _ _ _ _ Hr E)) as (C1 & C2 & C3 & C4 & C5 & C6 & C7).
      split; [congruence|]. split; [congruence|]. split; [intros b Hb; rewrite C3 by done; by apply B3|]. split; [congruence|]. split; [congruence|]. split.
      + intros r d Hd. destruct (B6 r d Hd) as (d1 & D1 & D2 & D3 & D4 & D5 & D6). destruct (C6 r d1 D1) as (d2 & F1 & F2 & F3 & F4 & F5 & F6).
        exists d2. split; [done|]. repeat split; congruence || lia.
      + intros u id. etrans; [apply B7|]. rewrite B2 in C7. apply C7. }
  split; [done|]. split; [done|]. split; [intros u; unfold get_pos; by rewrite A4|]. split; [done|]. split; [|rewrite A2; done].
  intros r d Hd. split; [by apply A6|]. intros Hnu. eapply C72_rates_of_a_ledger; [done|exact Hd|].
  rewrite Forall_forall in Hl, Hnu |- *. intros o Ho. destruct (Hl o Ho) as (sg & po & -> & _). split; [done|]. by apply (Hnu _ Ho).
Qed.
