(** * Pool calls as moves, and the invariant of every reachable pool *)
From Verif Require Import Base Types Token Emitter Factory Backstop PoolReserve PoolUser PoolHealth
  PoolAuction PoolSubmit PoolEmis PoolAdmin World Facts XMove Spec PoolFrame PoolCfg PoolAccrue PoolTrace PoolInv AuctionFacts
  PoolSim PoolReq PoolHF PoolOps PoolLiq.

(** calls that change neither reserve data nor positions nor auctions *)
Definition kept (p p' : PoolSt) : Prop :=
  ps_rdata p' = ps_rdata p /\ ps_pos p' = ps_pos p /\ ps_rcfg p' = ps_rcfg p /\ ps_list p' = ps_list p /\
  ps_auct p' = ps_auct p /\ ps_uemis p' = ps_uemis p /\ ps_init p' = ps_init p /\ ps_backstop p' = ps_backstop p /\ ps_blnd p' = ps_blnd p.

(** configuring a reserve: a new one, or an existing one whose interest is accrued
    and whose modifier may be reset *)
Definition res_set (now : Z) (a : Addr) (p p' : PoolSt) : Prop :=
  exists cfg', ps_rcfg p' = <[a := cfg']> (ps_rcfg p) /\ ps_pos p' = ps_pos p /\ ps_auct p' = ps_auct p /\
    ps_uemis p' = ps_uemis p /\ ps_edata p' = ps_edata p /\ ps_ecfg p' = ps_ecfg p /\ ps_init p' = ps_init p /\ ps_backstop p' = ps_backstop p /\ ps_blnd p' = ps_blnd p /\
    ps_config p' = ps_config p /\
  ((ps_rcfg p !! a = None /\ rc_index cfg' = Z.of_nat (length (ps_list p)) /\ ps_list p' = ps_list p ++ [a] /\
    ps_rdata p' = <[a := mkResData 1000000000 1000000000 1000000000 0 0 now 0]> (ps_rdata p)) \/
   (exists cfg d d', ps_rcfg p !! a = Some cfg /\ ps_rdata p !! a = Some d /\
    rc_index cfg' = rc_index cfg /\ rc_decimals cfg' = rc_decimals cfg /\ ps_list p' = ps_list p /\
    accrue now (pc_bstop_rate (ps_config p)) cfg d = Ok d' /\
    exists m, (m = rd_ir_mod d' \/ m = 1000000000) /\
    ps_rdata p' = <[a := d' <| rd_ir_mod := m |>]> (ps_rdata p))).

Lemma set_reserve_data c p a i p' : p_set_reserve c p a = Ok (i, p') -> res_set (c_now c) a p p'.
Proof.
  intros H. pose proof H as H0. apply set_reserve_spec in H0 as (q & Hq & _ & Hc & Hr & Hp'). cbv zeta in Hc, Hr.
  eexists. split; [exact Hr|]. split; [by rewrite Hp'|]. split; [by rewrite Hp'|]. split; [by rewrite Hp'|]. split; [by rewrite Hp'|].
  split; [by rewrite Hp'|]. split; [by rewrite Hp'|]. split; [by rewrite Hp'|]. split; [by rewrite Hp'|]. split; [by rewrite Hp'|].
  unfold p_set_reserve in H. apply bind_ok in H as (q' & E & H). apply assert_ok in H as [_ H].
  unfold initialize_reserve in H. apply bind_ok in H as ([idx p1] & E1 & H). injection H as <- <-. simpl in E1.
  destruct (ps_rcfg p !! a) as [old|] eqn:Er.
  - right. destruct Hc as (Hi & Hdec & Hl). apply bind_ok in E1 as ([r ch] & El & E1). apply assert_ok in E1 as [_ E1]. injection E1 as <- <-.
    apply load_reserve_fields in El. simpl in El. apply load_res_fields in El as (cfg & d & Hcf & Hd & Ha & _ & _ & _ & _ & _ & Hac).
    simpl in Hcf, Hd. rewrite Er in Hcf. injection Hcf as <-.
    exists old, d, (r_data r). split; [done|]. split; [done|]. split; [done|]. split; [done|]. split; [exact Hl|]. split; [done|].
    destruct (ir_changed old (qr_config q')); simpl; rewrite Ha.
    + exists 1000000000. split; [by right|done].
    + exists (rd_ir_mod (r_data r)). split; [by left|]. simpl. f_equal. by destruct (r_data r).
  - left. destruct Hc as (Hi & _ & Hl). split; [done|]. split; [exact Hi|]. split; [exact Hl|].
    apply assert_ok in E1 as [_ E1]. injection E1 as <- <-. done.
Qed.

Definition moves_of (po : POp) : bool :=
  match po with PSubmit _ _ _ _ | PBadDebt _ | PClaim _ _ _ | PNewLiq _ _ | PNewBadDebt | PNewInterest _ => true | _ => false end.

Lemma create_bad_debt_auct c self p x a p' : create_bad_debt c self p x = Ok (a, p') -> p' = set_auction p 1 (ps_backstop p) a.
Proof.
  unfold create_bad_debt. intros H. apply assert_ok in H as [_ H]. apply bind_ok in H as (? & _ & H).
  apply bind_ok in H as ([? ?] & _ & H). apply bind_ok in H as (? & _ & H). apply bind_ok in H as ([[? ?] ?] & _ & H).
  apply assert_ok in H as [_ H]. do 5 (apply bind_ok in H as (? & _ & H)). by injection H as <- <-.
Qed.
Lemma create_interest_auct c self p x l a p' : create_interest c self p x l = Ok (a, p') -> p' = set_auction p 2 (ps_backstop p) a.
Proof.
  unfold create_interest. intros H. apply assert_ok in H as [_ H].
  apply bind_ok in H as ([? ?] & _ & H). do 2 (apply bind_ok in H as (? & _ & H)). apply bind_ok in H as ([[? ?] ?] & _ & H).
  apply bind_ok in H as (? & _ & H). apply assert_ok in H as [_ H]. apply assert_ok in H as [_ H].
  do 5 (apply bind_ok in H as (? & _ & H)). by injection H as <- <-.
Qed.

Lemma forallb_nonneg ids : forallb in_u32 ids = true -> forall i, i ∈ ids -> 0 <= i.
Proof. intros H i Hi. rewrite forallb_forall in H. apply elem_of_list_In, H, in_u32_iff in Hi. lia. Qed.

Lemma p_exec_trace c self px po out px' :
  good (px_p px) -> ty_pop po = true -> moves_of po = true -> p_exec c self px po = Ok (out, px') ->
  exists ls, ptrace (c_now c) (px_p px) ls (px_p px').
Proof.
  intros G Hty Hm H. destruct po; simpl in Hm; try discriminate; simpl in H; rewrite (gd_init _ G) in H; simpl in H.
  - apply bind_ok in H as ([pos px1] & E & H). injection H as <- <-.
    apply submit_sim in E; [|done]. cbv zeta in E. destruct E as (_ & _ & _ & _ & _ & ls & x1 & ac & chk & t1 & t2 & Hq & _).
    apply areqs_trace in Hq. simpl in Hq. exists (LTouch from :: ls). eapply pt_cons; [apply pm_touch|exact Hq].
  - unfold on_pool in H. apply bind_ok in H as (p1 & E & H). injection H as <- <-.
    apply bad_debt_sim in E as (_ & _ & _ & T); [|done]. eauto.
  - unfold ret_z in H. apply bind_ok in H as ([z px1] & E & H). injection H as <- <-.
    apply claim_sim in E as (_ & es & _ & _ & T & _); [|done|by apply forallb_nonneg]. eauto.
  - apply bind_ok in H as ([a p1] & E & H). injection H as <- <-. simpl in Hty. apply in_u64_iff in Hty.
    apply create_liq_sim in E; [|done|lia]. cbv zeta in E. destruct E as (_ & _ & _ & _ & _ & _ & _ & _ & _ & ls & p2 & _ & T & ->).
    exists (ls ++ [LAuct]). eapply ptrace_app; [exact T|]. apply ptrace_one, pm_auct.
  - apply bind_ok in H as ([a p1] & E & H). injection H as <- <-. apply create_bad_debt_auct in E as ->.
    exists [LAuct]. apply ptrace_one, pm_auct.
  - apply bind_ok in H as ([a p1] & E & H). injection H as <- <-. apply create_interest_auct in E as ->.
    exists [LAuct]. apply ptrace_one, pm_auct.
Qed.

(** ** The three kinds of pool calls *)
Ltac kp H := rewrite <- H; unfold kept; simpl; tauto.
Lemma p_exec_data c self px po out px' :
  good (px_p px) -> ty_pop po = true -> p_exec c self px po = Ok (out, px') ->
  (moves_of po = true /\ exists ls, ptrace (c_now c) (px_p px) ls (px_p px')) \/
  (exists a, po = PSetRes a /\ res_set (c_now c) a (px_p px) (px_p px')) \/
  (moves_of po = false /\ (forall a, po <> PSetRes a) /\ kept (px_p px) (px_p px')).
Proof.
  intros G Hty H. destruct (moves_of po) eqn:Hm; [left; split; [done|]; by eapply p_exec_trace|right].
  pose proof (gd_init _ G) as Hi. pose proof H as H0. apply p_exec_cfg in H as [_ H]. cbv zeta in H.
  destruct po; simpl in Hm; try discriminate.
  - apply initialize_spec in H as (_ & Hi' & _). congruence.
  - right. split; [done|]. split; [done|]. unfold p_set_admin in H. mon H. by kp H.
  - right. split; [done|]. split; [done|]. unfold p_update_pool in H. mon H. by kp H.
  - right. split; [done|]. split; [done|]. unfold p_queue_reserve in H. mon H. by kp H.
  - right. split; [done|]. split; [done|]. unfold p_cancel_reserve in H. mon H. by kp H.
  - left. destruct H as (i & H & _). exists asset. split; [done|]. by eapply set_reserve_data.
  - right. split; [done|]. split; [done|]. destruct H as (s & H & _). unfold p_update_status in H. mon H. first [by kp H | unfold kept; simpl; tauto | match goal with E : _ = px_p px' |- _ => rewrite <- E; unfold kept; simpl; tauto end].
  - right. split; [done|]. split; [done|]. apply set_status_range in H as (_ & _ & ->). unfold kept; simpl; tauto.
  - right. split; [done|]. split; [done|]. rewrite H. unfold kept; simpl; tauto.
  - right. split; [done|]. split; [done|]. apply set_emis_spec in H as (_ & -> & _); [|done]. unfold kept; simpl; tauto.
Qed.

Lemma kept_good p p' : good p -> cfg_wf p' -> kept p p' -> good p'.
Proof.
  intros G W (H1 & H2 & H3 & H4 & _ & _ & H5 & _).
  assert (forall u, get_pos p' u = get_pos p u) as Hg by (intros; unfold get_pos; by rewrite H2).
  constructor; rewrite ?H5; try done.
  - apply G.
  - intros a. rewrite H1, H3. apply G.
  - intros a d. rewrite H1. apply G.
  - intros u k i v. rewrite Hg. apply (gd_pos p G).
  - intros u k i v. rewrite Hg, H4. apply (gd_idx p G).
  - intros k a cfg d. rewrite H1, H3. unfold total_k. rewrite H2. apply (gd_sum p G).
Qed.

Lemma res_set_good now a p p' : good p -> cfg_wf p' -> res_set now a p p' -> good p'.
Proof.
  intros G W (cfg' & Hrc & Hpos & _ & _ & _ & _ & Hin & _ & _ & _ & Hcase).
  assert (forall u, get_pos p' u = get_pos p u) as Hg by (intros; unfold get_pos; by rewrite Hpos).
  assert (forall k i, total_k k p' i = total_k k p i) as Ht by (intros; by apply total_ext).
  destruct Hcase as [(Hn & Hi & Hl & Hrd)|(cfg & d & d' & Hc & Hd & Hi & _ & Hl & Hac & m & Hm & Hrd)].
  - constructor; rewrite ?Hin; try done.
    + apply G.
    + intros b. rewrite Hrc, Hrd. destruct (decide (b = a)) as [->|]; [rewrite !lookup_insert; split; eauto|].
      rewrite !lookup_insert_ne by done. apply G.
    + intros b db Hb. rewrite Hrd in Hb. destruct (decide (b = a)) as [->|].
      * rewrite lookup_insert in Hb. injection Hb as <-. simpl. vals. lia.
      * rewrite lookup_insert_ne in Hb by done. by eapply G.
    + intros u k i v. rewrite Hg. apply (gd_pos p G).
    + intros u k i v Hv. rewrite Hg in Hv. rewrite Hl, app_length. pose proof (gd_idx p G u k i v Hv). simpl. lia.
    + intros k b cb db Hcb Hb. rewrite Ht. rewrite Hrc in Hcb. rewrite Hrd in Hb. destruct (decide (b = a)) as [->|].
      * rewrite lookup_insert in Hcb. rewrite lookup_insert in Hb. injection Hcb as <-. injection Hb as <-. rewrite Hi.
        assert (total_k k p (Z.of_nat (length (ps_list p))) = 0) as ->; [|by destruct k].
        assert (forall u k', getz (get_k k' (get_pos p u)) (Z.of_nat (length (ps_list p))) = 0) as Hz.
        { intros u k'. unfold getz. destruct (get_k k' (get_pos p u) !! _) eqn:E; [|done].
          apply (gd_idx p G) in E. lia. }
        unfold total_k. assert (forall e, e ∈ map_to_list (ps_pos p) -> ebal k e.2 (Z.of_nat (length (ps_list p))) = 0) as He.
        { intros [u pos] Hin'. apply elem_of_map_to_list in Hin'. simpl.
          assert (pos = get_pos p u) as -> by (unfold get_pos; by rewrite Hin').
          pose proof (Hz u KLiab). pose proof (Hz u KColl). pose proof (Hz u KSup). destruct k; simpl in *; unfold get_coll, get_sup, get_liab; lia. }
        rewrite (sumz_ext_in _ (fun _ => 0) _ He). generalize (map_to_list (ps_pos p)). induction l; simpl; lia.
      * rewrite lookup_insert_ne in Hcb by done. rewrite lookup_insert_ne in Hb by done. by eapply (gd_sum p G).
  - destruct (accrue_spec _ _ _ _ _ (good_rd _ _ _ G Hd) (cw_valid _ (gd_cfg _ G) _ _ Hc) (cw_rate _ (gd_cfg _ G)) Hac)
      as (Hok & Hbs & Hds & _).
    constructor; rewrite ?Hin; try done.
    + apply G.
    + intros b. rewrite Hrc, Hrd. destruct (decide (b = a)) as [->|]; [rewrite !lookup_insert; split; eauto|].
      rewrite !lookup_insert_ne by done. apply G.
    + intros b db Hb. rewrite Hrd in Hb. destruct (decide (b = a)) as [->|].
      * rewrite lookup_insert in Hb. injection Hb as <-. simpl. destruct Hok. split; [done|]. split; [done|]. destruct Hm as [->| ->]; [done|lia].
      * rewrite lookup_insert_ne in Hb by done. by eapply G.
    + intros u k i v. rewrite Hg. apply (gd_pos p G).
    + intros u k i v Hv. rewrite Hg in Hv. rewrite Hl. by eapply (gd_idx p G).
    + intros k b cb db Hcb Hb. rewrite Ht. rewrite Hrc in Hcb. rewrite Hrd in Hb. destruct (decide (b = a)) as [->|].
      * rewrite lookup_insert in Hcb. rewrite lookup_insert in Hb. injection Hcb as <-. injection Hb as <-. rewrite Hi.
        rewrite <- (gd_sum p G k a cfg d Hc Hd). destruct k; simpl; congruence.
      * rewrite lookup_insert_ne in Hcb by done. rewrite lookup_insert_ne in Hb by done. by eapply (gd_sum p G).
Qed.

Lemma init_good p : cfg_wf p -> ps_init p = true -> ps_rdata p = ∅ -> ps_pos p = ∅ -> ps_rcfg p = ∅ -> good p.
Proof.
  intros W Hi H1 H2 H3.
  assert (forall u, get_pos p u = no_positions) as Hg by (intros; unfold get_pos; by rewrite H2, lookup_empty).
  constructor; try done.
  - intros a. rewrite H1, H3, !lookup_empty. split; by intros [? ?].
  - intros a d. by rewrite H1, lookup_empty.
  - intros u k i v. rewrite Hg. destruct k; simpl; by rewrite lookup_empty.
  - intros u k i v. rewrite Hg. destruct k; simpl; by rewrite lookup_empty.
  - intros k a cfg d. by rewrite H1, H3, lookup_empty.
Qed.

(** every initialized pool satisfies the invariant *)
Lemma reachable_good w a : reachable w -> ps_init (pool w a) = true -> good (pool w a).
Proof.
  intros Hr. revert w Hr. apply (reach_inv' (fun w => ps_init (pool w a) = true -> good (pool w a))).
  - intros w (? & ? & ? & ? & ? & -> & _). unfold pool; simpl. rewrite lookup_empty. discriminate.
  - intros w o out w' Hw IH H Hi'.
    pose proof (reachable_cfg_wf _ a Hw) as W0.
    pose proof (pool_step_wf _ _ _ _ _ W0 (exec_pool _ _ _ _ a H)) as W'.
    apply (exec_pool _ _ _ _ a) in H.
    destruct H as [o out w' H _|sg po out px w' Hsg Hty Hp H Hw' _ _|sg admin salt orc rate mp w' -> Hn Hr Hm H|t u w' H|r w' H].
    + rewrite H in *. by apply IH.
    + rewrite Hw' in *. destruct (ps_init (pool w a)) eqn:Ei.
      * specialize (IH eq_refl). apply p_exec_data in H; [|done|done]. simpl in H.
        destruct H as [(_ & ls & T)|[(b & _ & Hs)|(_ & _ & Hk)]].
        -- by eapply ptrace_good.
        -- by eapply res_set_good.
        -- by eapply kept_good.
      * pose proof (cw_fresh _ W0 Ei) as Hf. pose proof H as H0. apply p_exec_cfg in H0 as [Hx H0]. cbv zeta in *. simpl in *.
        destruct po; try congruence. apply initialize_spec in H0 as (_ & _ & _ & _ & Hp'). 
        apply init_good; try done; rewrite Hp', Hf; done.
    + apply initialize_spec in H as (_ & _ & _ & _ & Hp'). apply init_good; try done; rewrite Hp'; done.
    + rewrite H in *. simpl in Hi'. specialize (IH Hi'). eapply (pmove_good 0); [exact IH|]. unfold del_auction. apply pm_auct.
    + rewrite H in *. simpl in Hi'. specialize (IH Hi'). eapply kept_good; [exact IH|done|unfold kept; tauto].
Qed.
