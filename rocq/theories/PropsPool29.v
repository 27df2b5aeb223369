(** * No profit within a ledger: C71 *)
From Verif Require Import Base Types Token Emitter Factory Backstop PoolReserve PoolUser PoolHealth
  PoolAuction PoolSubmit PoolEmis PoolAdmin World Facts XMove Spec PoolFrame PoolCfg PoolAccrue PoolTrace PoolInv AuctionFacts
  PoolSim PoolReq PoolHF PoolOps PoolLiq PoolReach PoolTx PropsAdmin BackMoves PropsPool1 PropsPool2 PropsPool3.

(** ** Specification *)
(** the exact value (times 10^9, in units of [r]) of what [u] has in the reserve [r] of the pool at [a]: bTokens minus dTokens at the rates of this moment *)
Definition stake (w : World) (a r u : Addr) : Z :=
  match reserve w a r with Some _ => worth w a r (account w a u) | None => 0 end.
(** everything the group [U] owns in units of token [r]: in their wallets and in the pools [A] *)
Definition wealth (w : World) (A U : list Addr) (r : Addr) : Z :=
  sumz (fun u => 1000000000 * held w r u + sumz (fun a => stake w a r u) A) U.
(** transactions of the group: supplying, withdrawing, borrowing and repaying in these pools for its members, paid by and paid out to its members; prices may change in between *)
Definition group_op (A U : list Addr) (o : Op) : Prop :=
  (exists sg a from spender to qs, o = OPool sg a (PSubmit from spender to qs) /\ a ∈ A /\ from ∈ U /\ spender ∈ U /\ to ∈ U /\ Forall plain qs) \/
  (exists orc, o = OOracle orc).

(** ** Lemmas *)
Lemma plain_others c self from s qs ls s' : areqs c self from s qs ls s' -> Forall plain qs ->
  (forall u, u <> from -> get_pos (as_p s') u = get_pos (as_p s) u) /\ Forall (fun q => is_Some (ps_rcfg (as_p s) !! rq_addr q)) qs /\
  ps_rcfg (as_p s') = ps_rcfg (as_p s).
Proof.
  induction 1 as [s|s q qs l1 s1 l2 s2 Hamt Hal Hq Hqs IH]; intros Hpl; [done|]. apply Forall_cons in Hpl as [Hpq Hpl].
  destruct (IH Hpl) as (I1 & I2 & I3).
  inversion Hq as [L x ac0 chk0 cfg d L1 L2 d2 dl pin pout ac' Hty Hc M1 Hd1 Hfl M2 Hd2 Hu Hp1 Hp2 A1 A2|? ? ? ? ? ? ? ? Ht'|? ? ? ? ? ? ? ? ? ? ? ? ? ? Ht'|? ? ? ? ? ? ? ? ? ? ? ? Ht'|? ? ? ? ? Ht']; subst;
    try (unfold plain in Hpq; exfalso; rewrite Ht' in Hpq; clear - Hpq; lia).
  cbn [as_p] in *. pose proof (areq_trace _ _ _ _ _ _ _ Hq) as T. pose proof (ptrace_cfg _ _ _ _ T) as (_ & _ & _ & _ & _ & _ & Hrc & _). cbn [as_p] in Hrc.
  split; [|split; [constructor; [by eexists|by rewrite <- Hrc]|congruence]].
  intros u Hu'. rewrite I1 by done. inversion M1; subst. inversion M2; subst.
  unfold get_pos at 1. cbn [ps_pos]. simpl. rewrite lookup_insert_ne by done. done.
Qed.
Lemma requests_none br dr r qs : Forall (fun q => rq_addr q <> r) qs -> forall acc, (requests br dr acc qs).1.2 r = 0 /\ (requests br dr acc qs).2 r = 0.
Proof.
  induction qs as [|q qs IH]; intros Hn acc; [done|]. apply Forall_cons in Hn as [Hq Hn]. cbn [requests]. destruct (request br dr acc q) as [[a1 i1] o1].
  specialize (IH Hn a1). destruct (requests br dr a1 qs) as [[a2 i2] o2]. cbn [fst snd] in *. unfold upd. destruct (Z.eqb_spec r (rq_addr q)); [congruence|]. lia.
Qed.
Lemma sumz_pick (U : list Addr) x n : NoDup U -> x ∈ U -> sumz (fun u => if u =? x then n else 0) U = n.
Proof.
  intros Hn Hx. rewrite (sumz_upd (fun _ => 0) (fun u => if u =? x then n else 0) U x Hn Hx).
  - rewrite Z.eqb_refl. rewrite (sumz_zero (fun _ : Addr => 0)); [lia|done].
  - intros y Hy. destruct (Z.eqb_spec y x); congruence.
Qed.

Lemma sumz_three (U : list Addr) (F F' : Addr -> Z) x y z a b c : NoDup U -> x ∈ U -> y ∈ U -> z ∈ U ->
  (forall u, u ∈ U -> F' u = F u + ((if u =? x then a else 0) + ((if u =? y then b else 0) + (if u =? z then c else 0)))) -> sumz F' U = sumz F U + a + b + c.
Proof. intros Hn Hx Hy Hz HF. rewrite (sumz_ext _ _ _ HF). rewrite !sumz_add, !sumz_pick by done. lia. Qed.
Lemma group_step w A U o out w' r : reachable w -> NoDup A -> NoDup U -> (forall u, u ∈ U -> u ∉ A) -> group_op A U o -> exec w o = Ok (out, w') ->
  wealth w' A U r <= wealth w A U r.
Proof.
  intros Hr HA HU Hd [(sg & a & from & spender & to & qs & -> & Ha & Hf & Hs & Ht & Hpl)|(orc & ->)] H.
  - pose proof (C13_plain_submit _ _ _ _ _ _ _ _ _ Hr H Hpl) as H13. pose proof (exec_opool _ _ _ _ _ _ H) as (_ & N & _ & px & _ & _ & _ & Hoth).
    pose proof (reachable_step _ _ _ _ Hr H) as Hr'.
    assert (forall b u, b <> a -> stake w' b r u = stake w b r u) as Hb.
    { intros b u Hne. unfold stake, worth, b_rate_now, d_rate_now, account, reserve, index_of, sup_of, coll_of, liab_of, positions. by rewrite (Hoth b Hne), N. }
    assert (a <> spender /\ a <> to) as [Nas Nat]. { split; intros ->; [exact (Hd _ Hs Ha)|exact (Hd _ Ht Ha)]. }
    pose proof H as Hx. apply submit_tx in Hx as (G & G' & Hcfg & _ & _ & _ & _ & _ & _ & ls & x1 & ac & chk & t1 & t2 & pos & _ & _ & Hqs & _); [|done].
    destruct (plain_others _ _ _ _ _ _ _ Hqs Hpl) as (Hpo & Hres & Hrc). cbn [as_p] in *. change (ps_rcfg (touch (pool w a) from)) with (ps_rcfg (pool w a)) in *.
    assert (forall u, u <> from -> positions w' a u = positions w a u) as Hpos.
    { intros u Hu. unfold positions. rewrite Hpo by done. unfold touch, get_pos. simpl. by rewrite lookup_insert_ne. }
    destruct (requests (b_rate_now w a) (d_rate_now w a) (account w a from) qs) as [[acc ins] outs] eqn:Er. destruct H13 as [_ Hh].
    assert (forall u, u ∈ U -> held w' r u = held w r u - (if u =? spender then ins r else 0) + (if u =? to then outs r else 0)) as Hhu.
    { intros u Hu. rewrite Hh. destruct (Z.eqb_spec u a) as [->|]; [by destruct (Hd _ Hu)|]. lia. }
    assert ((forall u, u <> from -> stake w' a r u = stake w a r u) /\ 1000000000 * (outs r - ins r) <= stake w a r from - stake w' a r from) as [Hso Hsf].
    { destruct (reserve w a r) as [d|] eqn:Ed.
      - destruct (submit_same_rates _ _ _ _ _ _ _ _ _ _ _ Hr H Ed) as (_ & Hidx & (d' & Ed') & Hbr & Hdr).
        pose proof (C06_no_extraction _ _ _ _ _ _ _ _ _ _ _ Hr H Hpl Ed) as H6. unfold stake. rewrite Ed, Ed'. split.
        + intros u Hu. unfold worth. rewrite Hbr, Hdr. unfold account. simpl. rewrite Hidx. unfold sup_of, coll_of, liab_of. by rewrite (Hpos u Hu).
        + rewrite (Hh r a) in H6. rewrite Z.eqb_refl in H6. destruct (Z.eqb_spec a spender); [done|]. destruct (Z.eqb_spec a to); [done|].
          unfold worth in *. rewrite Hbr, Hdr. lia.
      - assert (ps_rcfg (pool w a) !! r = None) as En.
        { destruct (ps_rcfg (pool w a) !! r) as [cfg|] eqn:Ec; [|done]. destruct (proj1 (gd_dom _ G r) (ex_intro _ _ Ec)) as [d' Hd']. unfold reserve in Ed. congruence. }
        assert (reserve w' a r = None) as Ed'.
        { destruct (reserve w' a r) as [d'|] eqn:Ed'; [|done]. destruct (proj2 (gd_dom _ G' r) (ex_intro _ _ Ed')) as [cfg Hc]. rewrite Hrc in Hc. congruence. }
        unfold stake. rewrite Ed, Ed'. split; [done|].
        assert (Forall (fun q => rq_addr q <> r) qs) as Hn. { eapply Forall_impl; [exact Hres|]. intros q [cfg Hc] He. simpl in Hc. rewrite He, En in Hc. done. }
        destruct (requests_none (b_rate_now w a) (d_rate_now w a) r qs Hn (account w a from)) as [I O]. rewrite Er in I, O. cbn [fst snd] in I, O. lia. }
    unfold wealth.
    rewrite (sumz_three U (fun u => 1000000000 * held w r u + sumz (fun a => stake w a r u) A) (fun u => 1000000000 * held w' r u + sumz (fun a => stake w' a r u) A)
      spender to from (- (1000000000 * ins r)) (1000000000 * outs r) (stake w' a r from - stake w a r from) HU Hs Ht Hf); [lia|].
    intros u Hu. rewrite (Hhu u Hu).
      rewrite (sumz_upd (fun a => stake w a r u) (fun a => stake w' a r u) A a HA Ha); [|intros b Hne; by apply Hb].
      destruct (Z.eqb_spec u from) as [Hue|Hne]; [rewrite <- !Hue|rewrite (Hso u Hne)]; destruct (u =? spender), (u =? to); lia.
  - unfold exec in H. apply assert_ok in H as [_ H]. injection H as _ <-. reflexivity.
Qed.

(** ** C71: within a ledger nobody can gain from supplying, withdrawing, borrowing and repaying, not even a group of accounts
    working together over several pools: in every token, what the group has in its wallets and in the pools never grows *)
Theorem C71_no_profit_in_a_ledger : forall w A U l r, reachable w -> NoDup A -> NoDup U -> (forall u, u ∈ U -> u ∉ A) ->
  Forall (group_op A U) l -> wealth (run w l) A U r <= wealth w A U r.
Proof.
  intros w A U l r Hr HA HU Hd Hl. revert w Hr. induction l as [|o l IH]; intros w Hr; [simpl; lia|]. apply Forall_cons in Hl as [Ho Hl].
  simpl. unfold step. destruct (exec w o) as [[out w1]|e] eqn:E; [|by apply IH].
  pose proof (group_step _ _ _ _ _ _ r Hr HA HU Hd Ho E). pose proof (IH Hl w1 (reachable_step _ _ _ _ Hr E)). lia.
Qed.
