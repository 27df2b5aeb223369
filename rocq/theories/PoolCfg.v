(** * Configuration of a pool: which transactions change it, and its invariant *)
From Verif Require Import Base Types Token Emitter Factory Backstop PoolReserve PoolUser PoolHealth
  PoolAuction PoolSubmit PoolEmis PoolAdmin World Facts XMove Spec FrameFacts PoolFrame.

(** the pool contract at address [a]; [fresh_pool] where no pool is installed *)
Definition pool (w : World) (a : Addr) : PoolSt := default fresh_pool (w_pools w !! a).

(** ** What each pool call can do to the configuration *)
Lemma p_exec_cfg c self px po out px' :
  p_exec c self px po = Ok (out, px') ->
  let p := px_p px in let p' := px_p px' in
  (match po with PInit _ _ _ _ _ _ => True | _ => ps_init p = true end) /\
  match po with
  | PInit a orc r m b t => p_initialize c p a orc r m b t = Ok p'
  | PSetAdmin a => p_set_admin c p a = Ok p'
  | PUpdatePool r m => p_update_pool c p r m = Ok p'
  | PQueueRes a m => p_queue_reserve c p a m = Ok p'
  | PCancelRes a => p_cancel_reserve c p a = Ok p'
  | PSetRes a => exists i, p_set_reserve c p a = Ok (i, p') /\ out = OutZ i
  | PUpdateStatus => exists s, p_update_status self p (px_x px) = Ok (s, p') /\ out = OutZ s
  | PSetStatus s => p_set_status c self p (px_x px) s = Ok p'
  | PSetEmis ms => p_set_emis c p ms = Ok p'
  | PGulp => p' = p <| ps_edata := ps_edata p' |> <| ps_ecfg := ps_ecfg p' |>
  | _ => same_cfg p p'
  end.
Proof.
  destruct po; simpl; intros H; unfold on_pool, ret_z in H; mon H; simpl; (split; [done|]); eauto.
  - by eapply submit_cfg in E.
  - by eapply bad_debt_cfg.
  - by eapply p_gulp_frame.
  - by eapply emis_cfg, p_claim_emis.
  - by eapply create_liquidation_cfg.
  - by eapply create_bad_debt_cfg.
  - by eapply create_interest_cfg.
Qed.

(** the ways a transaction can change the pool at [a] *)
Inductive pool_step (w : World) (a : Addr) : Op -> Out -> World -> Prop :=
| ps_same o out w' : pool w' a = pool w a -> (forall sg po, o <> OPool sg a po) -> pool_step w a o out w'
| ps_call sg po out px w' :
    forallb ok_signer sg = true -> ty_pop po = true -> w_pools w !! a = Some (pool w a) ->
    p_exec (ctx w sg) a (mkPX (pool w a) (w_ext w)) po = Ok (out, px) ->
    pool w' a = px_p px -> w_ext w' = px_x px -> w_now w' = w_now w ->
    pool_step w a (OPool sg a po) out w'
| ps_deploy sg admin salt orc rate mp w' :
    a = dep_addr admin salt -> w_pools w !! a = None -> in_u32 rate = true -> in_u32 mp = true ->
    p_initialize (ctx w sg) fresh_pool admin orc rate mp (fa_backstop (x_fac (w_ext w))) (fa_blnd (x_fac (w_ext w)))
      = Ok (pool w' a) ->
    pool_step w a (ODeploy sg admin salt orc rate mp) (OutAddr a) w'
| ps_exp_auct t u w' : pool w' a = del_auction (pool w a) t u -> pool_step w a (OExpireAuction a t u) OutUnit w'
| ps_exp_queue r w' :
    pool w' a = pool w a <| ps_queue := delete r (ps_queue (pool w a)) |> -> pool_step w a (OExpireQueue a r) OutUnit w'.

Lemma exec_pool w o out w' a : exec w o = Ok (out, w') -> pool_step w a o out w'.
Proof.
  intros H. unfold exec in H.
  destruct o as [sg o|sg b o|sg ad sa orc ra mp|b|dt ds|orc|n|b t u|b r|].
  - mon H. by apply ps_same.
  - mon H. destruct (decide (b = a)) as [->|Hne].
    + destruct (w_pools w !! a) eqn:Ep; [|discriminate]. injection E as ->. apply andb_prop in G as [? ?].
      eapply ps_call; eauto; unfold pool; simpl; rewrite ?lookup_insert, ?Ep; done.
    + apply ps_same; [|congruence]. unfold pool; simpl. by rewrite lookup_insert_ne.
  - mon H. destruct (w_pools w !! _) eqn:Ep; mon H.
    apply andb_prop in G as [G ?]. apply andb_prop in G as [? ?].
    destruct (decide (dep_addr ad sa = a)) as [<-|Hne].
    + eapply ps_deploy; eauto. unfold pool; simpl. rewrite lookup_insert. done.
    + apply ps_same; [|congruence]. unfold pool; simpl. by rewrite lookup_insert_ne.
  - mon H. destruct (w_pools w !! b) eqn:Ep; mon H. apply ps_same; [|congruence]. unfold pool; simpl.
    destruct (decide (b = a)) as [->|Hne]; [by rewrite lookup_insert, Ep|by rewrite lookup_insert_ne].
  - mon H. by apply ps_same.
  - mon H. by apply ps_same.
  - mon H. by apply ps_same.
  - mon H. destruct (decide (b = a)) as [->|Hne].
    + apply ps_exp_auct. unfold pool; simpl. rewrite lookup_insert. destruct (w_pools w !! a); [|discriminate].
      by injection E as ->.
    + apply ps_same; [|congruence]. unfold pool; simpl. by rewrite lookup_insert_ne.
  - mon H. destruct (decide (b = a)) as [->|Hne].
    + apply ps_exp_queue. unfold pool; simpl. rewrite lookup_insert. destruct (w_pools w !! a); [|discriminate].
      by injection E as ->.
    + apply ps_same; [|congruence]. unfold pool; simpl. by rewrite lookup_insert_ne.
  - mon H. by apply ps_same.
Qed.

(** ** The configuration invariant *)

(** the documented bounds of a reserve configuration *)
Definition cfg_bounds (m : ResConfig) : Prop :=
  0 <= rc_decimals m <= 18 /\ 0 <= rc_c_factor m <= 10000000 /\ 0 <= rc_l_factor m <= 10000000 /\
  0 <= rc_util m <= 9500000 /\ rc_util m < rc_max_util m <= 10000000 /\
  1000 <= rc_r_base m < 10000000 /\ 0 <= rc_r_one m <= rc_r_two m /\ rc_r_two m <= rc_r_three m <= u32_max /\
  0 <= rc_reactivity m <= 1000.

Lemma valid_bounds m : ty_cfg m = true -> valid_metadata m = true -> cfg_bounds m.
Proof.
  unfold ty_cfg, valid_metadata, cfg_bounds. intros Ht Hv.
  repeat (apply andb_prop in Ht as [Ht ?]).
  repeat match goal with H : in_u32 _ = true |- _ => apply in_u32_iff in H end.
  apply negb_true_iff in Hv. repeat (apply orb_false_iff in Hv as [Hv ?]).
  repeat match goal with H : (_ || _) = false |- _ => apply orb_false_iff in H as [? ?] end.
  vals. lia.
Qed.

Record cfg_wf (p : PoolSt) : Prop := {
  cw_fresh : ps_init p = false -> p = fresh_pool;
  cw_len : (length (ps_list p) <= 32)%nat;
  cw_nodup : NoDup (ps_list p);
  cw_idx : forall i a, ps_list p !! i = Some a -> exists cfg, ps_rcfg p !! a = Some cfg /\ rc_index cfg = Z.of_nat i;
  cw_list : forall a cfg, ps_rcfg p !! a = Some cfg -> a ∈ ps_list p;
  cw_valid : forall a cfg, ps_rcfg p !! a = Some cfg -> cfg_bounds cfg;
  cw_queue : forall a q, ps_queue p !! a = Some q -> cfg_bounds (qr_config q);
  cw_rate : 0 <= pc_bstop_rate (ps_config p) < 10000000;
  cw_status : ps_init p = true -> 0 <= pc_status (ps_config p) <= 6;
  cw_maxpos : 0 <= pc_max_positions (ps_config p) <= u32_max;
  cw_share : forall id v, ps_pemis p !! id = Some v -> 0 <= v /\ 0 <= id < 2 * Z.of_nat (length (ps_list p));
  cw_shares : sumz snd (map_to_list (ps_pemis p)) <= 10000000
}.

Lemma fresh_wf : cfg_wf fresh_pool.
Proof.
  constructor; simpl; try done; try (intros ? ?; by rewrite lookup_empty); try (vals; lia).
  apply NoDup_nil_2.
Qed.

Lemma wf_same_cfg p p' : cfg_wf p -> ps_init p = true -> same_cfg p p' -> cfg_wf p'.
Proof.
  intros [] Hi (H1 & H2 & H3 & H4 & H5 & H6 & H7 & H8 & H9 & H10).
  constructor; rewrite ?H5, ?H6, ?H7, ?H8, ?H10; auto. rewrite H1, Hi. discriminate.
Qed.

(** the reserve returned by a cache or storage load carries the configured index *)
Lemma load_res_fields now pc p a r :
  load_res now pc p a = Ok r ->
  exists cfg d, ps_rcfg p !! a = Some cfg /\ ps_rdata p !! a = Some d /\
    r_asset r = a /\ r_index r = rc_index cfg /\ r_l_factor r = rc_l_factor cfg /\ r_c_factor r = rc_c_factor cfg /\
    r_max_util r = rc_max_util cfg /\ r_scalar r = 10 ^ rc_decimals cfg /\
    accrue now (pc_bstop_rate pc) cfg d = Ok (r_data r).
Proof.
  unfold load_res. intros H. mon H. destruct (ps_rcfg p !! a) as [cf|]; [|discriminate]. injection E as ->.
  destruct (ps_rdata p !! a) as [dd|]; [|discriminate]. injection E0 as ->.
  apply i128_ok in E1 as [-> _]. simpl. exists cfg, d. auto 20.
Qed.

Lemma set_emis_spec c p ms p' :
  p_set_emis c p ms = Ok p' -> forallb (fun m => in_u32 (em_res_index m) && in_u32 (em_res_type m) && in_u64 (em_share m)) ms = true ->
  c_auth c (ps_admin p) = true /\ p' = p <| ps_pemis := ps_pemis p' |> /\
  (forall id v, ps_pemis p' !! id = Some v -> 0 <= v /\ 0 <= id < 2 * Z.of_nat (length (ps_list p))) /\
  sumz snd (map_to_list (ps_pemis p')) <= 10000000.
Proof.
  unfold p_set_emis. intros H Hty. mon H. apply need_auth_ok in E. split; [done|]. split; [done|]. simpl.
  assert (forall ms (s s' : gmap Z Z * Z), foldM (emis_meta_one (ps_list p)) s ms = Ok s' ->
    forallb (fun m => in_u32 (em_res_index m) && in_u32 (em_res_type m) && in_u64 (em_share m)) ms = true ->
    (forall id v, s.1 !! id = Some v -> 0 <= v /\ 0 <= id < 2 * Z.of_nat (length (ps_list p))) ->
    sumz snd (map_to_list s.1) <= s.2 ->
    (forall id v, s'.1 !! id = Some v -> 0 <= v /\ 0 <= id < 2 * Z.of_nat (length (ps_list p))) /\
    sumz snd (map_to_list s'.1) <= s'.2) as Hl.
  { clear. intros ms. induction ms as [|m ms IH]; simpl; intros s s' H Hty H1 H2; mon1 H; [by subst|].
    apply andb_prop in Hty as [Hm Hty]. apply andb_prop in Hm as [Hm Hm3]. apply andb_prop in Hm as [Hm1 Hm2].
    apply in_u32_iff in Hm1, Hm2. apply in_u64_iff in Hm3.
    apply IH in H; [done|done|..]; unfold emis_meta_one in E; mon E; apply u32_ok in E0, E1; apply u64_ok in E2; simpl.
    - destruct E0 as [-> _], E1 as [-> _], E2 as [-> _].
      apply negb_true_iff, orb_false_iff in G as [G1 G2]. apply negb_false_iff in G2.
      unfold list_get in G2. destruct (em_res_index m <? 0); [done|].
      destruct (ps_list p !! Z.to_nat (em_res_index m)) eqn:El; [|done]. apply lookup_lt_Some in El.
      intros id v Hid. destruct (decide (id = em_res_index m * 2 + em_res_type m)) as [->|Hne].
      + rewrite lookup_insert in Hid. injection Hid as <-. lia.
      + rewrite lookup_insert_ne in Hid by done. eauto.
    - destruct E0 as [-> _], E1 as [-> _], E2 as [-> _]. rewrite sumz_map_insert. simpl.
      destruct (s.1 !! _) eqn:Es; [apply H1 in Es|]; lia. }
  apply Hl in E0; [|done|..]; simpl in *; try done.
  - destruct E0 as [? ?]. split; [done|]. vals. lia.
Qed.

Lemma load_reserve_fields now p a r ch :
  load_reserve now p (pool_load p) a false = Ok (r, ch) -> load_res now (ps_config p) p a = Ok r.
Proof. unfold load_reserve. simpl. rewrite lookup_empty. intros H. by mon H. Qed.

Lemma set_reserve_spec c p a i p' :
  p_set_reserve c p a = Ok (i, p') ->
  exists q, ps_queue p !! a = Some q /\ qr_unlock q <= c_now c /\
    let new := qr_config q <| rc_index := i |> in
    (match ps_rcfg p !! a with
     | Some old => i = rc_index old /\ rc_decimals old = rc_decimals new /\ ps_list p' = ps_list p
     | None => i = Z.of_nat (length (ps_list p)) /\ (length (ps_list p) <> 32)%nat /\ ps_list p' = ps_list p ++ [a]
     end) /\
    ps_rcfg p' = <[a := new]> (ps_rcfg p) /\
    p' = p <| ps_queue := delete a (ps_queue p) |> <| ps_rcfg := ps_rcfg p' |> <| ps_list := ps_list p' |>
           <| ps_rdata := ps_rdata p' |>.
Proof.
  unfold p_set_reserve. intros H. mon H. destruct (ps_queue p !! a) as [q'|] eqn:Eq; [|discriminate].
  injection E as ->. exists q. split; [done|]. split; [lia|]. unfold initialize_reserve in H. mon H. simpl in E.
  destruct (ps_rcfg p !! a) as [old|] eqn:Er; mon E; simpl.
  - apply load_reserve_fields in E0. simpl in E0. apply load_res_fields in E0 as (cfg & d & Hc & Hd & _ & Hi & _).
    simpl in Hc. rewrite Er in Hc. injection Hc as <-.
    assert (forall b : bool, r_index (if b then r <| r_data := r_data r <| rd_ir_mod := SCALAR_9 |> |> else r) = rc_index old) as Hx
      by (intros []; done).
    rewrite !Hx. split; [repeat split; lia|]. split; [done|]. by destruct p.
  - split; [repeat split; lia|]. split; [done|]. by destruct p.
Qed.

Lemma bounds_index m i : cfg_bounds m -> cfg_bounds (m <| rc_index := i |>).
Proof. done. Qed.

Lemma set_reserve_wf c p a i p' : cfg_wf p -> ps_init p = true -> p_set_reserve c p a = Ok (i, p') -> cfg_wf p'.
Proof.
  intros W Hi H. apply set_reserve_spec in H as (q & Hq & _ & Hc & Hr & Hp'). cbv zeta in Hc, Hr.
  rewrite Hp'.
  constructor; simpl; try apply W; rewrite ?Hr.
  - rewrite Hi. discriminate.
  - pose proof (cw_len p W). destruct (ps_rcfg p !! a).
    + destruct Hc as (_ & _ & ->). done.
    + destruct Hc as (_ & ? & ->). rewrite app_length. simpl. lia.
  - destruct (ps_rcfg p !! a) eqn:Er.
    + destruct Hc as (_ & _ & ->). apply W.
    + destruct Hc as (_ & _ & ->). apply NoDup_app. split; [apply W|]. split; [|apply NoDup_singleton].
      intros b Hb Hb2. apply elem_of_list_singleton in Hb2 as ->.
      apply elem_of_list_lookup in Hb as (j & Hb). destruct (cw_idx p W _ _ Hb) as (cfg & Hc & _). congruence.
  - intros j b Hb.
    assert (forall b, ps_list p !! j = Some b -> exists cfg, <[a := qr_config q <| rc_index := i |>]> (ps_rcfg p) !! b = Some cfg /\ rc_index cfg = Z.of_nat j) as Hold.
    { intros b' Hb'. destruct (cw_idx p W _ _ Hb') as (cfg & Hcf & Hj). destruct (decide (b' = a)) as [->|].
      - rewrite lookup_insert. eexists; split; [done|]. simpl. rewrite Hcf in Hc. destruct Hc as (-> & _). done.
      - rewrite lookup_insert_ne by done. eauto. }
    destruct (ps_rcfg p !! a) eqn:Er.
    + destruct Hc as (_ & _ & Hl). rewrite Hl in Hb. auto.
    + destruct Hc as (-> & _ & Hl). rewrite Hl in Hb. apply lookup_app_Some in Hb as [Hb|[Hj Hb]]; [auto|].
      apply list_lookup_singleton_Some in Hb as [Hj2 <-]. rewrite lookup_insert. eexists; split; [done|].
      simpl. lia.
  - intros b cfg Hb. assert (a ∈ ps_list p').
    { destruct (ps_rcfg p !! a) eqn:Er; [destruct Hc as (_ & _ & ->); by eapply cw_list|].
      destruct Hc as (_ & _ & ->). set_solver. }
    destruct (decide (b = a)) as [->|]; [done|]. rewrite lookup_insert_ne in Hb by done.
    pose proof (cw_list p W _ _ Hb).
    destruct (ps_rcfg p !! a); destruct Hc as (_ & _ & ->); set_solver.
  - intros b cfg Hb. destruct (decide (b = a)) as [->|].
    + rewrite lookup_insert in Hb. injection Hb as <-. apply bounds_index. by eapply cw_queue.
    + rewrite lookup_insert_ne in Hb by done. by eapply cw_valid.
  - intros b q' Hb. apply lookup_delete_Some in Hb as [_ Hb]. by eapply cw_queue.
  - intros id v Hv. destruct (cw_share p W _ _ Hv) as [? ?]. split; [done|].
    destruct (ps_rcfg p !! a); destruct Hc as (_ & _ & ->); rewrite ?app_length; lia.
Qed.

Lemma next_status_range s q m s' : 0 <= s <= 6 -> next_status s q m = Ok s' -> 0 <= s' <= 5.
Proof.
  intros Hs H.
  assert (s = 0 \/ s = 1 \/ s = 2 \/ s = 3 \/ s = 4 \/ s = 5 \/ s = 6) as Hc by lia.
  destruct Hc as [-> | [-> | [-> | [-> | [-> | [-> | ->]]]]]]; simpl in H; try discriminate; injection H as <-;
    repeat match goal with |- context [if ?b then _ else _] => destruct b end; lia.
Qed.

Lemma set_status_range c self p x s p' :
  p_set_status c self p x s = Ok p' ->
  c_auth c (ps_admin p) = true /\ (s = 0 \/ s = 2 \/ s = 3 \/ s = 4) /\ p' = set_config p s.
Proof.
  unfold p_set_status. intros H. mon H. apply need_auth_ok in E. split; [done|].
  destruct s as [|s|s]; try discriminate; repeat (destruct s; try discriminate); mon H; auto 10.
Qed.

Lemma initialize_spec c p a orc r m b t p' :
  p_initialize c p a orc r m b t = Ok p' ->
  c_auth c a = true /\ ps_init p = false /\ r < 10000000 /\ 2 <= m /\
  p' = p <| ps_admin := a |> <| ps_backstop := b |> <| ps_config := mkPoolConfig orc r 6 m |>
         <| ps_blnd := t |> <| ps_init := true |>.
Proof.
  unfold p_initialize. intros H. mon H. apply need_auth_ok in E. vals.
  repeat split; try done; try lia. by destruct (ps_init p).
Qed.

Lemma initialize_wf c p a orc r m b t p' :
  cfg_wf p -> in_u32 r = true -> in_u32 m = true -> p_initialize c p a orc r m b t = Ok p' -> cfg_wf p'.
Proof.
  intros W Hr Hm H. apply initialize_spec in H as (_ & Hi & ? & ? & ->).
  apply in_u32_iff in Hr, Hm.
  constructor; simpl; try apply W; try done; lia.
Qed.

Lemma pool_step_wf w a o out w' : cfg_wf (pool w a) -> pool_step w a o out w' -> cfg_wf (pool w' a).
Proof.
  intros W H. destruct H as [o out w' H _|sg po out px w' Hsg Hty Hp H Hw _ _|sg admin salt orc rate mp w' -> Hn Hr Hm H|t u w' H|r w' H].
  - by rewrite H.
  - rewrite Hw. apply p_exec_cfg in H as [Hi H]. cbv zeta in *. simpl in *. set (p := pool w a) in *. set (p' := px_p px) in *.
    clearbody p p'.
    destruct po; simpl in Hty.
    + apply andb_prop in Hty as [? ?]. eapply initialize_wf; [exact W| | |exact H]; done.
    + unfold p_set_admin in H. mon H. constructor; simpl; try apply W. by rewrite Hi.
    + unfold p_update_pool in H. mon H. apply andb_prop in Hty as [H1 H2]. apply in_u32_iff in H1, H2.
      constructor; simpl; try apply W; vals; [by rewrite Hi|lia|lia].
    + unfold p_queue_reserve in H. mon H. constructor; simpl; try apply W; [by rewrite Hi|].
      intros b q Hq. destruct (decide (b = asset)) as [->|].
      * rewrite lookup_insert in Hq. injection Hq as <-. simpl. by apply valid_bounds.
      * rewrite lookup_insert_ne in Hq by done. by eapply cw_queue.
    + unfold p_cancel_reserve in H. mon H. constructor; simpl; try apply W; [by rewrite Hi|].
      intros b q Hq. apply lookup_delete_Some in Hq as [_ Hq]. by eapply cw_queue.
    + destruct H as (i & H & _). by eapply set_reserve_wf.
    + by eapply wf_same_cfg.
    + by eapply wf_same_cfg.
    + destruct H as (s & H & _). unfold p_update_status in H. mon H. unfold set_config.
      apply next_status_range in E0; [|by apply W].
      constructor; simpl; try apply W; [by rewrite Hi|lia].
    + apply set_status_range in H as (_ & Hs & ->). unfold set_config.
      constructor; simpl; try apply W; [by rewrite Hi|lia].
    + rewrite H. constructor; simpl; try apply W. by rewrite Hi.
    + apply set_emis_spec in H as (_ & Hp' & H1 & H2); [|done]. rewrite Hp'.
      constructor; simpl; try apply W; try done. by rewrite Hi.
    + by eapply wf_same_cfg.
    + by eapply wf_same_cfg.
    + by eapply wf_same_cfg.
    + by eapply wf_same_cfg.
  - eapply initialize_wf; [|exact Hr|exact Hm|exact H]. apply fresh_wf.
  - rewrite H. constructor; simpl; try apply W. intros Hi. rewrite (cw_fresh _ W Hi). unfold del_auction, fresh_pool; simpl.
    unfold set; simpl. f_equal. apply delete_empty.
  - rewrite H. constructor; simpl; try apply W.
    + intros Hi. rewrite (cw_fresh _ W Hi). unfold fresh_pool; simpl. unfold set; simpl. f_equal. apply delete_empty.
    + intros b q Hq. apply lookup_delete_Some in Hq as [_ Hq]. by eapply cw_queue.
Qed.

Lemma reachable_cfg_wf w a : reachable w -> cfg_wf (pool w a).
Proof.
  revert w. apply reach_inv.
  - intros w (? & ? & ? & ? & ? & -> & _). unfold pool; simpl. rewrite lookup_empty. apply fresh_wf.
  - intros w o out w' W H. eapply pool_step_wf; [exact W|]. by eapply exec_pool.
Qed.
