(** * The configuration of a pool can be replayed from its events (C89) *)
From Verif Require Import Base Types Token Emitter Factory Backstop PoolReserve PoolUser PoolHealth
  PoolAuction PoolSubmit PoolEmis PoolAdmin World Events Facts XMove Spec FrameFacts PoolFrame PoolCfg PoolInv
  BackMoves PropsAdmin PropsEvents1 PropsEvents2.

(** ** Specification *)
(** what somebody who reads only the events knows of a pool's configuration: its admin, take rate, position limit and status, its reserves in
    order with their parameters, the reserve changes that are queued, and the emission streams (rate, end) of its reserve tokens *)
Record Settings := mkSettings {
  st_admin : Addr; st_rate : Z; st_max : Z; st_status : Z;
  st_list : list Addr; st_cfg : Addr -> option ResConfig; st_wait : Addr -> option ResConfig;
  st_emis : Z -> option (Z * Z)
}.
Definition put {A} (f : Z -> option A) (k : Z) (v : option A) : Z -> option A := fun j => if j =? k then v else f j.
Definition settle (a : Addr) (s : Settings) (e : Event) : Settings :=
  match e with
  | VSetAdmin p _ n => if p =? a then mkSettings n (st_rate s) (st_max s) (st_status s) (st_list s) (st_cfg s) (st_wait s) (st_emis s) else s
  | VUpdatePool p _ r m => if p =? a then mkSettings (st_admin s) r m (st_status s) (st_list s) (st_cfg s) (st_wait s) (st_emis s) else s
  | VStatus p _ n => if p =? a then mkSettings (st_admin s) (st_rate s) (st_max s) n (st_list s) (st_cfg s) (st_wait s) (st_emis s) else s
  | VQueueRes p _ x m => if p =? a then mkSettings (st_admin s) (st_rate s) (st_max s) (st_status s) (st_list s) (st_cfg s) (put (st_wait s) x (Some m)) (st_emis s) else s
  | VCancelRes p _ x => if p =? a then mkSettings (st_admin s) (st_rate s) (st_max s) (st_status s) (st_list s) (st_cfg s) (put (st_wait s) x None) (st_emis s) else s
  (* what was queued last becomes the reserve's configuration, with the published index; a new reserve joins the list *)
  | VSetRes p x i =>
      if p =? a then
        match st_wait s x with
        | Some m => mkSettings (st_admin s) (st_rate s) (st_max s) (st_status s)
            (if i =? Z.of_nat (length (st_list s)) then st_list s ++ [x] else st_list s)
            (put (st_cfg s) x (Some (m <| rc_index := i |>))) (put (st_wait s) x None) (st_emis s)
        | None => s
        end
      else s
  | VEmis p id eps exp => if p =? a then mkSettings (st_admin s) (st_rate s) (st_max s) (st_status s) (st_list s) (st_cfg s) (st_wait s) (put (st_emis s) id (Some (eps, exp))) else s
  | _ => s
  end.
(** the settings describe a pool; a queued change whose temporary entry has expired is still listed, since nothing is published then *)
Definition describes (s : Settings) (p : PoolSt) : Prop :=
  st_admin s = ps_admin p /\ st_rate s = pc_bstop_rate (ps_config p) /\ st_max s = pc_max_positions (ps_config p) /\ st_status s = pc_status (ps_config p) /\
  st_list s = ps_list p /\ (forall x, st_cfg s x = ps_rcfg p !! x) /\
  (forall x q, ps_queue p !! x = Some q -> st_wait s x = Some (qr_config q)) /\
  (forall id, st_emis s id = match ps_ecfg p !! id with Some c => Some (ec_eps c, ec_exp c) | None => None end).

(** ** Events that settle nothing *)
Definition mute (e : Event) : Prop := forall a s, settle a s e = s.
Lemma fold_mute a es s : Forall mute es -> fold_left (settle a) es s = s.
Proof. intros H. revert s. induction H as [|e es He _ IH]; intros s; [done|]. cbn [fold_left]. by rewrite He, IH. Qed.
Lemma one_mute e es : mute e -> Ok [e] = Ok es -> Forall mute es.
Proof. intros He [= <-]. constructor; [exact He|constructor]. Qed.
Lemma debts_mute self u l liab es : debts_ev self u l liab = Ok es -> Forall mute es.
Proof.
  unfold debts_ev. intros H. eapply all_fold; [|exact H|constructor]. intros l0 e l1 H1 H0. apply bind_ok in H1 as (r & _ & H1). apply Ok_inj in H1 as <-.
  apply Forall_app. split; [done|]. constructor; [done|constructor].
Qed.
Lemma request_mute c self from s q es : request_ev c self from s q = Ok es -> Forall mute es.
Proof.
  unfold request_ev. cbv zeta. intros H.
  assert (forall mk, (forall x n, mute (mk x n)) -> supply_ev (c_now c) s q mk = Ok es -> Forall mute es) as HS.
  { intros mk Hm Hs. unfold supply_ev in Hs. apply bind_ok in Hs as ([r ch] & _ & Hs). apply bind_ok in Hs as (m & _ & Hs). by eapply one_mute. }
  assert (forall h mk, (forall x n, mute (mk x n)) -> withdraw_ev (c_now c) s q h mk = Ok es -> Forall mute es) as HW.
  { intros h mk Hm Hs. unfold withdraw_ev in Hs. apply bind_ok in Hs as ([r ch] & _ & Hs). cbv zeta in Hs. apply bind_ok in Hs as (m & _ & Hs). destruct (_ <? _); [apply bind_ok in Hs as (o & _ & Hs)|]; by eapply one_mute. }
  assert (forall mk, (forall x n, mute (mk x n)) -> borrow_ev (c_now c) s q mk = Ok es -> Forall mute es) as HB.
  { intros mk Hm Hs. unfold borrow_ev in Hs. apply bind_ok in Hs as ([r ch] & _ & Hs). apply bind_ok in Hs as (m & _ & Hs). by eapply one_mute. }
  assert (forall mk, (forall x n, mute (mk x n)) -> repay_ev (c_now c) s q mk = Ok es -> Forall mute es) as HR.
  { intros mk Hm Hs. unfold repay_ev in Hs. apply bind_ok in Hs as ([r ch] & _ & Hs). cbv zeta in Hs. apply bind_ok in Hs as (m & _ & Hs). destruct (_ <? _); [apply bind_ok in Hs as (o & _ & Hs); apply bind_ok in Hs as (o1 & _ & Hs); apply bind_ok in Hs as (o2 & _ & Hs)|]; by eapply one_mute. }
  destruct (rq_type q) as [|k|k]; [|do 4 (try destruct k as [k|k|])|]; try (apply Ok_inj in H as <-; constructor; [done|constructor] || constructor; fail).
  all: try (eapply HS; [|exact H]; done). all: try (eapply HW; [|exact H]; done). all: try (eapply HB; [|exact H]; done). all: try (eapply HR; [|exact H]; done).
  all: try (apply Ok_inj in H as <-; constructor; fail).
  all: try (apply Ok_inj in H as <-; constructor; [done|constructor]; fail).
  - apply bind_ok in H as (e0 & He & H). apply Ok_inj in H as <-. apply Forall_app. split; [|constructor; [done|constructor]].
    unfold fill_bad_debt_ev in He. cbv zeta in He. apply bind_ok in He as (au & _ & He). apply bind_ok in He as ([tf rem] & _ & He). apply bind_ok in He as ([[p1 ch1] bpos] & _ & He). apply bind_ok in He as ([[p2 ch2] fpos] & _ & He).
    apply bind_ok in He as (bt & _ & He). apply bind_ok in He as (lot & _ & He). apply bind_ok in He as (x & _ & He). destruct (bool_decide _); [eapply one_mute; [|exact He]; done|]. apply bind_ok in He as (pd & _ & He).
    destruct (_ <? 3); [|eapply one_mute; [|exact He]; done]. apply bind_ok in He as (es1 & He1 & He). apply Ok_inj in He as <-. constructor; [done|]. by eapply debts_mute.
  - apply bind_ok in H as (e0 & He & H). apply Ok_inj in H as <-. apply Forall_app. split; [|constructor; [done|constructor]].
    unfold fill_interest_ev in He. apply bind_ok in He as (au & _ & He). apply bind_ok in He as ([tf rem] & _ & He). apply bind_ok in He as (bt & _ & He). apply bind_ok in He as (bid & _ & He). eapply one_mute; [|exact He]. done.
Qed.
Lemma requests_mute c self from qs : forall s es, requests_ev c self from s qs = Ok es -> Forall mute es.
Proof.
  induction qs as [|q qs IH]; intros s es H; cbn [requests_ev] in H; [apply Ok_inj in H as <-; constructor|]. apply bind_ok in H as (e & He & H). apply bind_ok in H as (s1 & _ & H). apply bind_ok in H as (es1 & H1 & H). apply Ok_inj in H as <-.
  apply Forall_app. split; [by eapply request_mute|by eapply IH].
Qed.
Lemma ext_mute c x o out x' es : ext_ev c x o out x' = Ok es -> Forall mute es.
Proof.
  intros H. destruct o; cbn [ext_ev] in H; try (eapply one_mute; [|exact H]; done); try (apply Ok_inj in H as <-; constructor; fail).
  all: try (apply bind_ok in H as (s & _ & H); eapply one_mute; [|exact H]; done).
  all: try (destruct out; try (eapply one_mute; [|exact H]; done); apply Ok_inj in H as <-; constructor; fail).
  unfold claim_ev in H. apply bind_ok in H as ([[n1 m1] x1] & _ & H). destruct (0 <? n1); [|eapply one_mute; [|exact H]; done]. cbv zeta in H.
  apply bind_ok in H as (t3 & _ & H). apply bind_ok in H as (t4 & _ & H). apply bind_ok in H as ([es1 x3] & Hf & H). apply Ok_inj in H as <-. apply Forall_app. split; [|by repeat constructor].
  revert Hf. match goal with |- foldM ?g _ _ = _ -> _ => assert (forall l s s', foldM g s l = Ok s' -> Forall mute s.1 -> Forall mute s'.1) as HF end.
  { intros l. induction l as [|p l IH]; intros s s' Hs H0; cbn [foldM] in Hs; [by apply Ok_inj in Hs as <-|]. apply bind_ok in Hs as (s1 & Hs1 & Hs). eapply IH; [exact Hs|]. destruct s as [l0 y0]. unfold claim_dep_ev in Hs1.
    apply bind_ok in Hs1 as (a & _ & Hs1). apply bind_ok in Hs1 as (dep & _ & Hs1). apply bind_ok in Hs1 as (sh & _ & Hs1). apply bind_ok in Hs1 as (y & _ & Hs1). apply Ok_inj in Hs1 as <-. cbn [fst]. apply Forall_app. split; [done|]. constructor; [done|constructor]. }
  intros Hf. by apply (HF _ _ (es1, x3)) in Hf; [|constructor].
Qed.
(** the events of another pool *)
Definition mute_for (a : Addr) (e : Event) : Prop := forall s, settle a s e = s.
Lemma fold_mute_for a es s : Forall (mute_for a) es -> fold_left (settle a) es s = s.
Proof. intros H. revert s. induction H as [|e es He _ IH]; intros s; [done|]. cbn [fold_left]. by rewrite He, IH. Qed.
Lemma mute_mute_for a es : Forall mute es -> Forall (mute_for a) es.
Proof. intros H. eapply Forall_impl; [exact H|]. intros e He s. apply He. Qed.
Lemma pool_mute_for a c self p x o out p' es : self <> a -> pool_ev c self p x o out p' = Ok es -> Forall (mute_for a) es.
Proof.
  intros Hne H. assert (forall e, (forall s, (if self =? a then settle a s e else s) = settle a s e) -> Ok [e] = Ok es -> Forall (mute_for a) es) as H1.
  { intros e He [= <-]. constructor; [|constructor]. intros s. rewrite <- He. by rewrite (proj2 (Z.eqb_neq _ _) Hne). }
  assert (forall e, (forall s, (if self =? a then settle a s e else s) = settle a s e) -> mute_for a e) as H2.
  { intros e He s. rewrite <- He. by rewrite (proj2 (Z.eqb_neq _ _) Hne). }
  destruct o; cbn [pool_ev] in H.
  all: try (apply mute_mute_for; by eapply debts_mute). all: try (apply mute_mute_for; unfold submit_ev in H; by eapply requests_mute).
  all: try (eapply H1; [|exact H]; intros s; cbn [settle]; by destruct (self =? a)).
  all: try (apply Ok_inj in H as <-; constructor; fail).
  all: destruct out; try (apply Ok_inj in H as <-; constructor; fail). all: try (eapply H1; [|exact H]; intros s; cbn [settle]; by destruct (self =? a)).
  apply bind_ok in H as (e1 & Hf & H). apply Ok_inj in H as <-. apply Forall_app. split; [|repeat constructor; done].
  eapply all_fold; [|exact Hf|constructor]. intros l0 e0 l1 H3 H0. apply bind_ok in H3 as (r & _ & H3). apply Ok_inj in H3 as <-. apply Forall_app. split; [done|]. constructor; [|constructor]. apply H2. intros s. cbn [settle]. by destruct (self =? a).
Qed.

(** ** Emission streams *)
Definition with_emis (s : Settings) (f : Z -> option (Z * Z)) : Settings :=
  mkSettings (st_admin s) (st_rate s) (st_max s) (st_status s) (st_list s) (st_cfg s) (st_wait s) f.
Definition stream (cfg : gmap Z EmisConfig) (id : Z) : option (Z * Z) := match cfg !! id with Some c => Some (ec_eps c, ec_exp c) | None => None end.
Lemma gulp_told a (cfg : gmap Z EmisConfig) en : forall es0 es s,
  foldM (fun es (e : Z * Z) => let? c := unwrap (cfg !! fst e) in Ok (es ++ [VEmis a (fst e) (ec_eps c) (ec_exp c)])) es0 en = Ok es ->
  exists f, fold_left (settle a) es s = with_emis (fold_left (settle a) es0 s) f /\
    forall id, f id = if decide (id ∈ en.*1) then stream cfg id else st_emis (fold_left (settle a) es0 s) id.
Proof.
  induction en as [|e en IH]; intros es0 es s H; cbn [foldM] in H.
  - apply Ok_inj in H as <-. exists (st_emis (fold_left (settle a) es0 s)). split; [by destruct (fold_left _ _ _)|]. intros id. rewrite decide_False; [done|]. cbn. apply not_elem_of_nil.
  - apply bind_ok in H as (es1 & H1 & H). apply bind_ok in H1 as (c & Hc & H1). apply Ok_inj in H1 as <-. assert (cfg !! e.1 = Some c) as Hc' by (destruct (cfg !! e.1); [by injection Hc as ->|done]).
    destruct (IH _ _ s H) as (f & E & Hf). rewrite fold_left_app in E, Hf. cbn [fold_left settle] in E, Hf. rewrite Z.eqb_refl in E, Hf. exists f. split; [exact E|].
    intros id. rewrite Hf. cbn [st_emis fmap list_fmap]. destruct (decide (id ∈ en.*1)) as [Hi|Hi].
    + rewrite decide_True; [done|]. apply elem_of_cons. by right.
    + unfold put. destruct (Z.eqb_spec id e.1) as [->|Hn].
      * rewrite decide_True by (apply elem_of_cons; by left). unfold stream. by rewrite Hc'.
      * rewrite decide_False; [done|]. intros Hx. apply elem_of_cons in Hx as [?|?]; done.
Qed.
Lemma update_ecfg_other now p a id n p' j : update_res_ecfg now p a id n = Ok p' -> j <> id -> ps_ecfg p' !! j = ps_ecfg p !! j.
Proof.
  unfold update_res_ecfg. intros H Hj. apply bind_ok in H as ([lft p1] & H1 & H). apply bind_ok in H as (e & _ & H). apply bind_ok in H as (eps & _ & H). apply Ok_inj in H as <-.
  unfold set_ecfg. simpl. rewrite lookup_insert_ne by done. assert (ps_ecfg p1 = ps_ecfg p) as ->; [|done].
  destruct (ps_ecfg p !! id) as [c|].
  - apply bind_ok in H1 as (rc & _ & H1). apply bind_ok in H1 as (rd & _ & H1). cbv zeta in H1. apply bind_ok in H1 as (sc & _ & H1). apply bind_ok in H1 as ([d p2] & H2 & H1).
    assert (ps_ecfg p2 = ps_ecfg p) as <- by (apply update_edata_emis in H2; rewrite H2; done).
    assert (forall b : bool, ps_ecfg (if b then set_edata p2 id (mkEmisData (ed_index d) now) else p2) = ps_ecfg p2) as Hb by (by intros []).
    destruct (now <? ec_exp c); [apply bind_ok in H1 as (? & _ & H1); apply bind_ok in H1 as (? & _ & H1); apply bind_ok in H1 as (? & _ & H1)|]; apply Ok_inj in H1; injection H1 as _ <-; apply Hb.
  - apply Ok_inj in H1. by injection H1 as _ <-.
Qed.
Lemma do_gulp_other now p n p' j : do_gulp now p n = Ok p' -> j ∉ (entries (ps_pemis p)).*1 -> ps_ecfg p' !! j = ps_ecfg p !! j.
Proof.
  unfold do_gulp. intros H Hj. apply assert_ok in H as [_ H]. revert H Hj. generalize (entries (ps_pemis p)). intros l. revert p. induction l as [|e l IH]; intros p H Hj; cbn [foldM] in H; [by apply Ok_inj in H as <-|].
  apply bind_ok in H as (p1 & H1 & H). rewrite (IH _ H) by (intros Hx; apply Hj, elem_of_cons; by right). unfold gulp_res in H1. apply bind_ok in H1 as (a & _ & H1). apply bind_ok in H1 as (m & _ & H1).
  eapply update_ecfg_other; [exact H1|]. intros ->. apply Hj, elem_of_cons. by left.
Qed.

(** ** The pool's own calls *)
Lemma same_cfg_describes s p p' : same_cfg p p' -> describes s p -> describes s p'.
Proof. intros (_ & E1 & _ & _ & E2 & E3 & E4 & E5 & E6 & _) D. unfold describes. by rewrite E1, E2, E3, E4, E5, E6. Qed.
Lemma index_in_list p x cfg : cfg_wf p -> ps_rcfg p !! x = Some cfg -> rc_index cfg <> Z.of_nat (length (ps_list p)).
Proof.
  intros W Hc. pose proof (cw_list _ W _ _ Hc) as Hin. apply elem_of_list_lookup in Hin as [i Hi]. destruct (cw_idx _ W _ _ Hi) as (c' & Hc' & E). assert (cfg = c') as -> by congruence.
  apply lookup_lt_Some in Hi. lia.
Qed.
Lemma call_describes w sg a po out px es s : ty_pop po = true -> cfg_wf (pool w a) ->
  p_exec (ctx w sg) a (mkPX (pool w a) (w_ext w)) po = Ok (out, px) -> ps_init (pool w a) = true ->
  pool_ev (ctx w sg) a (pool w a) (w_ext w) po out (px_p px) = Ok es -> describes s (pool w a) -> describes (fold_left (settle a) es s) (px_p px).
Proof.
  intros Hty W Hx Hi He D. pose proof Hx as Hx0. apply p_exec_cfg in Hx as [_ Hx]. cbv zeta in Hx. cbn [px_p px_x] in Hx.
  assert (Forall mute es -> same_cfg (pool w a) (px_p px) -> describes (fold_left (settle a) es s) (px_p px)) as HM.
  { intros Hm Hs. rewrite fold_mute by done. by eapply same_cfg_describes. }
  destruct po; cbn [pool_ev] in He.
  - apply initialize_spec in Hx as (_ & Hx & _). congruence.
  - apply Ok_inj in He as <-. cbn [fold_left settle]. rewrite Z.eqb_refl. unfold p_set_admin in Hx. mon Hx. match goal with H : _ = px_p px |- _ => rewrite <- H end. destruct D as (D1 & D2 & D3 & D4 & D5 & D6 & D7 & D8). split; [done|]. done.
  - apply Ok_inj in He as <-. cbn [fold_left settle]. rewrite Z.eqb_refl. unfold p_update_pool in Hx. mon Hx. match goal with H : _ = px_p px |- _ => rewrite <- H end. destruct D as (D1 & D2 & D3 & D4 & D5 & D6 & D7 & D8). do 4 (split; [done|]). done.
  - apply Ok_inj in He as <-. cbn [fold_left settle]. rewrite Z.eqb_refl. unfold p_queue_reserve in Hx. mon Hx. match goal with H : _ = px_p px |- _ => rewrite <- H end. destruct D as (D1 & D2 & D3 & D4 & D5 & D6 & D7 & D8). do 6 (split; [done|]). split; [|done].
    intros y q Hq. simpl in Hq. unfold put. cbn [st_wait]. destruct (Z.eqb_spec y asset) as [->|Hn]; [rewrite lookup_insert in Hq; by injection Hq as <-|]. rewrite lookup_insert_ne in Hq by done. by apply D7.
  - apply Ok_inj in He as <-. cbn [fold_left settle]. rewrite Z.eqb_refl. unfold p_cancel_reserve in Hx. mon Hx. match goal with H : _ = px_p px |- _ => rewrite <- H end. destruct D as (D1 & D2 & D3 & D4 & D5 & D6 & D7 & D8). do 6 (split; [done|]). split; [|done].
    intros y q Hq. simpl in Hq. apply lookup_delete_Some in Hq as [Hn Hq]. unfold put. cbn [st_wait]. destruct (Z.eqb_spec y asset) as [->|_]; [done|]. by apply D7.
  - destruct Hx as (i & Hx & ->). apply Ok_inj in He as <-. cbn [fold_left settle]. rewrite Z.eqb_refl. apply set_reserve_spec in Hx as (q & Hq & _ & Hl & Hc & Hx). cbv zeta in Hl.
    destruct D as (D1 & D2 & D3 & D4 & D5 & D6 & D7 & D8). rewrite (D7 _ _ Hq). rewrite Hx. do 4 (split; [done|]).
    split; [|split; [|split; [|done]]].
    + cbn. rewrite D5. destruct (ps_rcfg (pool w a) !! asset) as [old|] eqn:Eo.
      * destruct Hl as (-> & _ & ->). rewrite (proj2 (Z.eqb_neq _ _)); [done|]. by eapply index_in_list.
      * destruct Hl as (-> & _ & ->). by rewrite Z.eqb_refl.
    + intros x. cbn. rewrite Hc. unfold put. destruct (Z.eqb_spec x asset) as [->|Hn]; [by rewrite lookup_insert|]. by rewrite lookup_insert_ne.
    + intros x q' Hq'. cbn in Hq'. apply lookup_delete_Some in Hq' as [Hn Hq']. unfold put. cbn [st_wait]. destruct (Z.eqb_spec x asset) as [->|_]; [done|]. by apply D7.
  - apply HM; [unfold submit_ev in He; by eapply requests_mute|done].
  - apply HM; [by eapply debts_mute|done].
  - destruct Hx as (n & Hx & ->). apply Ok_inj in He as <-. cbn [fold_left settle]. rewrite Z.eqb_refl. unfold p_update_status in Hx. mon Hx. destruct D as (D1 & D2 & D3 & D4 & D5 & D6 & D7 & D8). match goal with H : px_p px = _ |- _ => rewrite H | H : _ = px_p px |- _ => rewrite <- H | |- _ => idtac end. do 4 (split; [done|]). done.
  - apply Ok_inj in He as <-. cbn [fold_left settle]. rewrite Z.eqb_refl. apply set_status_range in Hx as (_ & _ & ->). destruct D as (D1 & D2 & D3 & D4 & D5 & D6 & D7 & D8). do 4 (split; [done|]). done.
  - cbn [p_exec] in Hx0. unfold p_exec in Hx0. cbv zeta in Hx0. apply assert_ok in Hx0 as [_ Hx0]. unfold ret_z in Hx0. apply bind_ok in Hx0 as ([n px1] & Hg & Hx0). apply Ok_inj in Hx0. injection Hx0 as <- ->.
    unfold p_gulp in Hg. apply bind_ok in Hg as ([n1 x1] & _ & Hg). cbn [px_p] in Hg. apply bind_ok in Hg as (p1 & Hg & H1). apply Ok_inj in H1. injection H1 as _ <-. cbn [px_p] in *.
    apply bind_ok in He as (es1 & H1 & He). apply Ok_inj in He as <-. apply (gulp_told _ _ _ _ _ s) in H1 as (f & E & Hf). rewrite fold_left_app, E. cbn [fold_left] in *. cbn [settle].
    destruct D as (D1 & D2 & D3 & D4 & D5 & D6 & D7 & D8). rewrite Hx. unfold with_emis. do 7 (split; [done|]). intros id. cbn [st_emis]. rewrite Hf. cbn. destruct (decide _) as [Hin|Hin]; [done|]. rewrite (do_gulp_other _ _ _ _ _ Hg Hin). apply D8.
  - apply Ok_inj in He as <-. cbn [fold_left]. apply set_emis_spec in Hx as (_ & Hx & _); [|done]. rewrite Hx. exact D.
  - apply HM; [|done]. destruct out; apply Ok_inj in He as <-; repeat constructor; done.
  - apply HM; [|done]. destruct out; apply Ok_inj in He as <-; repeat constructor; done.
  - apply HM; [|done]. destruct out; apply Ok_inj in He as <-; repeat constructor; done.
  - apply HM; [|done]. destruct out; apply Ok_inj in He as <-; repeat constructor; done.
Qed.
Lemma exec_describes w o out w' a s : reachable w -> exec w o = Ok (out, w') -> ps_init (pool w a) = true -> describes s (pool w a) ->
  describes (fold_left (settle a) (events w o) s) (pool w' a).
Proof.
  intros Hr H Hi D. destruct (C82_events_defined _ _ _ _ Hr H) as [es Hes]. unfold events. rewrite H, Hes. pose proof (reachable_cfg_wf w a Hr) as W.
  destruct (exec_pool _ _ _ _ a H) as [o out w' Ep Hno|sg po out px w' _ Hty Hw Hx Hp' _ _|sg admin salt orc rate mp w' Ha Hn _ _ _|t u w' Ep|r w' Ep].
  - rewrite Ep. destruct o as [sg xo|sg a1 po|sg ad salt orc rate mp|b0|dt ds|orc|n|b0 t u|b0 r|]; cbn [op_ev] in Hes; try (apply Ok_inj in Hes as <-; exact D).
    + by rewrite (fold_mute _ _ _ (ext_mute _ _ _ _ _ _ Hes)).
    + apply bind_ok in Hes as (p & _ & Hes). apply bind_ok in Hes as (p' & _ & Hes). rewrite (fold_mute_for a); [done|]. eapply pool_mute_for; [|exact Hes]. intros ->. by apply (Hno sg po).
  - cbn [op_ev] in Hes. rewrite Hw in Hes. cbn [bind unwrap] in Hes. apply bind_ok in Hes as (p' & Hp & Hes).
    assert (p' = px_p px) as -> by (unfold pool in Hp'; destruct (w_pools w' !! a); [|done]; injection Hp as <-; exact Hp').
    rewrite Hp'. by eapply call_describes.
  - exfalso. unfold pool in Hi. by rewrite Hn in Hi.
  - apply Ok_inj in Hes as <-. rewrite Ep. exact D.
  - apply Ok_inj in Hes as <-. rewrite Ep. destruct D as (D1 & D2 & D3 & D4 & D5 & D6 & D7 & D8). do 6 (split; [done|]). split; [|done].
    intros y q Hq. simpl in Hq. apply lookup_delete_Some in Hq as [_ Hq]. by apply D7.
Qed.

(** ** C89: starting from a correct description of an initialized pool, following its events gives a correct description at all later times:
    admin, take rate, position limit, status, the list of reserves, their parameters, the pending changes and the emission streams. *)
Theorem C89_configuration_replay w l a s : reachable w -> ps_init (pool w a) = true -> describes s (pool w a) ->
  describes (fold_left (settle a) (map snd (event_log w l)) s) (pool (run w l) a).
Proof.
  revert w s. induction l as [|o l IH]; intros w s Hr Hi D; [exact D|].
  cbn [event_log]. rewrite map_app, fold_left_app, map_map. cbn [snd]. rewrite map_id. change (run w (o :: l)) with (run (step w o) l).
  apply IH; [exact (reachable_run w [o] Hr)| |].
  - unfold step. destruct (exec w o) as [[out w']|] eqn:E; [|done]. eapply init_step; [by apply exec_pool|done].
  - unfold step. destruct (exec w o) as [[out w']|] eqn:E; [by eapply exec_describes|]. unfold events. by rewrite E.
Qed.
