(** * Requests without the cache: every request of a submit, as moves of the storage *)
From Verif Require Import Base Types Token Emitter Factory Backstop PoolReserve PoolUser PoolHealth
  PoolAuction PoolSubmit PoolEmis PoolAdmin World Facts PoolFrame PoolCfg PoolAccrue PoolTrace PoolInv AuctionFacts.

(** the labels of changing the positions of [u] by [s] times the listed amounts *)
Definition lbls (k : kind) (u : Addr) (s : Z) (l : list (Addr * Z)) : list label :=
  flat_map (fun e => [LAcc e.1; LPos k u e.1 (s * e.2)]) l.
Definition rm_lbls (u : Addr) (coll liab : gmap Addr Z) : list label :=
  lbls KColl u (-1) (entries coll) ++ lbls KLiab u (-1) (entries liab).
Definition add_lbls (u : Addr) (coll liab : gmap Addr Z) : list label :=
  lbls KColl u 1 (entries coll) ++ lbls KLiab u 1 (entries liab).
Definition cred_lbls (l : list (Addr * Z)) : list label :=
  flat_map (fun e => [LAcc e.1; LCred e.1 e.2]) l.

Lemma cache_cache ch r r' : r_asset r = r_asset r' -> cache_reserve (cache_reserve ch r) r' = cache_reserve ch r'.
Proof. intros H. unfold cache_reserve. rewrite H. destruct ch; unfold set; simpl. f_equal. apply insert_insert. Qed.

(** one load, one position change *)
Lemma step_sim now p ch ov k f u a pos r ch1 amt p1 pos1 r1 dl :
  cwf now p ch ov -> good (flush p ch ov) -> ov !! u = Some pos ->
  (is_add k f /\ 0 < amt /\ dl = amt) \/ (is_rem k f /\ dl = - amt) ->
  load_reserve now p ch a true = Ok (r, ch1) ->
  f now p u pos r amt = Ok (p1, pos1, r1) ->
  let L := flush p ch ov in let L1 := flush p (cache_reserve ch1 r) ov in
  let ch' := cache_reserve ch1 r1 in let ov' := <[u := pos1]> ov in
  cwf now p1 ch' ov' /\ pmove now L (LAcc a) L1 /\ ps_rdata L1 !! a = Some (r_data r) /\
  pmove now L1 (LPos k u a dl) (flush p1 ch' ov') /\ good L1 /\ good (flush p1 ch' ov') /\
  r_asset r = a /\ r_asset r1 = a /\ (exists cfg, ps_rcfg p !! a = Some cfg /\ r_index r = rc_index cfg).
Proof.
  intros W G Hov Hf Hl H. simpl.
  pose proof (load_sim _ _ _ ov _ _ _ W Hl) as (W1 & M1 & Hr & Hst & Ha). simpl in *.
  pose proof (pmove_good _ _ _ _ G M1) as G1.
  pose proof (pos_sim now p (cache_reserve ch1 r) ov k f u a pos r amt p1 pos1 r1 dl W1 (gd_pos _ G1) Hov Hr Hst Hf H) as (W2 & M2 & _).
  assert (r_asset r1 = r_asset r) as Ha1.
  { destruct Hf as [(Hf & _)|(Hf & _)]; [apply (add_changed k) in H as (_ & (_ & _ & _ & ->) & _); [done|exact Hf]
                                        |apply (rem_changed k) in H as (_ & (_ & _ & _ & ->) & _ & _); [done|exact Hf]]. }
  rewrite cache_cache in W2, M2 by done.
  split; [done|]. split; [done|]. split.
  { pose proof (flush_rdata p (cache_reserve ch1 r) ov a) as Hfl. rewrite decide_True in Hfl by done.
    simpl in Hfl. rewrite Hr in Hfl. exact Hfl. }
  split; [done|]. split; [done|]. split; [by eapply pmove_good|]. split; [done|]. split; [congruence|].
  pose proof (cf_res _ _ _ _ W1 _ _ Hr) as Hlr.
  pose proof (load_res_fields _ _ _ _ _ Hlr) as (cfg & d & Hc & _ & _ & Hi & _). eauto.
Qed.

Lemma pos_steps_sim now k f u sg l p ch ov pos p' ch' pos' :
  cwf now p ch ov -> good (flush p ch ov) -> ov !! u = Some pos ->
  (is_add k f /\ (forall a v, (a, v) ∈ l -> 0 < v) /\ sg = 1) \/ (is_rem k f /\ sg = -1) ->
  foldM (pos_step f now u) (p, ch, pos) l = Ok (p', ch', pos') ->
  cwf now p' ch' (<[u := pos']> ov) /\ good (flush p' ch' (<[u := pos']> ov)) /\
  ptrace now (flush p ch ov) (lbls k u sg l) (flush p' ch' (<[u := pos']> ov)).
Proof.
  revert p ch ov pos. induction l as [|[a v] l IH]; simpl; intros p ch ov pos W G Hov Hf H.
  - injection H as <- <- <-. rewrite insert_id by done. split; [done|]. split; [done|]. constructor.
  - mon1 H. unfold pos_step in E. mon E. simpl in *.
    match goal with El : load_reserve _ _ _ _ _ = Ok (?r, ?ch1), Ef : f _ _ _ _ _ _ = Ok (?p1, ?pos1, ?r1) |- _ =>
      pose proof (step_sim now p ch ov k f u a pos r ch1 v p1 pos1 r1 (sg * v) W G Hov) as Hs; specialize (fun Hx => Hs Hx El Ef) end.
    simpl in Hs. destruct Hs as (W1 & M1 & _ & M2 & _ & G1 & _).
    { destruct Hf as [(Hf & Hp & ->)|(Hf & ->)]; [left|right]; (split; [done|]); [split; [|lia]|lia]. eapply Hp. left. }
    match type of H with foldM _ (?q, ?c, ?po) _ = _ => specialize (IH q c (<[u := po]> ov) po W1 G1) end.
    destruct IH as (W2 & G2 & T); [by rewrite lookup_insert| |done|].
    { destruct Hf as [(Hf & Hp & ->)|(Hf & ->)]; [left|right]; (split; [done|]); [split; [|done]|done]. intros; eapply Hp; by right. }
    rewrite insert_insert in *. split; [done|]. split; [done|].
    eapply pt_cons; [done|]. eapply pt_cons; [done|]. done.
Qed.

Lemma rm_sim now u p ch ov pos coll liab p' ch' pos' :
  cwf now p ch ov -> good (flush p ch ov) -> ov !! u = Some pos ->
  rm_positions now u (p, ch, pos) coll liab = Ok (p', ch', pos') ->
  cwf now p' ch' (<[u := pos']> ov) /\ good (flush p' ch' (<[u := pos']> ov)) /\
  ptrace now (flush p ch ov) (rm_lbls u coll liab) (flush p' ch' (<[u := pos']> ov)).
Proof.
  intros W G Hov H. unfold rm_positions in H. mon1 H. destruct s as [[p1 ch1] pos1].
  eapply (pos_steps_sim now KColl _ _ (-1)) in E as (W1 & G1 & T1); eauto; [|by right].
  eapply (pos_steps_sim now KLiab _ _ (-1)) in H as (W2 & G2 & T2); [|done|done|by rewrite lookup_insert|by right].
  rewrite insert_insert in *. split; [done|]. split; [done|]. by eapply ptrace_app.
Qed.
Lemma add_sim now u p ch ov pos coll liab p' ch' pos' :
  cwf now p ch ov -> good (flush p ch ov) -> ov !! u = Some pos ->
  (forall a v, coll !! a = Some v -> 0 < v) -> (forall a v, liab !! a = Some v -> 0 < v) ->
  add_positions now u (p, ch, pos) coll liab = Ok (p', ch', pos') ->
  cwf now p' ch' (<[u := pos']> ov) /\ good (flush p' ch' (<[u := pos']> ov)) /\
  ptrace now (flush p ch ov) (add_lbls u coll liab) (flush p' ch' (<[u := pos']> ov)).
Proof.
  intros W G Hov Hp1 Hp2 H. unfold add_positions in H. mon1 H. destruct s as [[p1 ch1] pos1].
  eapply (pos_steps_sim now KColl _ _ 1) in E as (W1 & G1 & T1); eauto;
    [|left; split; [done|]; split; [|done]; intros a v Hv; apply elem_of_entries in Hv; eauto].
  eapply (pos_steps_sim now KLiab _ _ 1) in H as (W2 & G2 & T2); [|done|done|by rewrite lookup_insert|
    left; split; [done|]; split; [|done]; intros a v Hv; apply elem_of_entries in Hv; eauto].
  rewrite insert_insert in *. split; [done|]. split; [done|]. by eapply ptrace_app.
Qed.

(** taking positions into memory and writing them back *)
Lemma touch_sim now p ch ov u :
  cwf now p ch ov -> ov !! u = None ->
  cwf now p ch (<[u := get_pos p u]> ov) /\ pmove now (flush p ch ov) (LTouch u) (flush p ch (<[u := get_pos p u]> ov)).
Proof.
  intros W Hov. split; [destruct W; by constructor|].
  pose proof (pm_touch now (flush p ch ov) u) as Hm. rewrite flush_get_pos, Hov in Hm.
  assert (flush p ch (<[u := get_pos p u]> ov) = flush p ch ov <| ps_pos := <[u := get_pos p u]> (ps_pos (flush p ch ov)) |>) as ->; [|done].
  unfold flush at 1. simpl. rewrite <- insert_union_l. destruct p; done.
Qed.
Lemma writeback now p ch ov u pos :
  cwf now p ch (<[u := pos]> ov) -> ov !! u = None ->
  cwf now (set_pos p u pos) ch ov /\ flush (set_pos p u pos) ch ov = flush p ch (<[u := pos]> ov).
Proof.
  intros W Hov.
  assert (flush (set_pos p u pos) ch ov = flush p ch (<[u := pos]> ov)) as Hf.
  { unfold flush, set_pos. simpl. rewrite <- insert_union_r by done. rewrite insert_union_l. destruct p; done. }
  split; [|done]. destruct W as [W1 W2 W3]. constructor; [done| |done]. intros a r Hr. rewrite Hf. by apply W2.
Qed.
Lemma flush_auct now p ch ov m :
  cwf now p ch ov -> cwf now (p <| ps_auct := m |>) ch ov /\
  flush (p <| ps_auct := m |>) ch ov = flush p ch ov <| ps_auct := m |>.
Proof.
  intros W. assert (flush (p <| ps_auct := m |>) ch ov = flush p ch ov <| ps_auct := m |>) as Hf by (by destruct p).
  split; [|done]. destruct W as [W1 W2 W3]. constructor; [done| |done]. intros a r Hr.
  rewrite <- (W2 _ _ Hr). apply load_res_ext; done.
Qed.

(** ** Fills *)
Definition au_pos (a : Auction) : Prop :=
  (forall k v, au_bid a !! k = Some v -> 0 < v) /\ (forall k v, au_lot a !! k = Some v -> 0 < v).
Lemma keep_pos (o : option Z) f v : (o ≫= fun x => keep (f x)) = Some v -> 0 < v.
Proof. destruct o as [x|]; simpl; [|done]. unfold keep. destruct (0 <? f x) eqn:E; [|done]. intros [= <-]. lia. Qed.
Lemma scale_pos seq a pct tf rem : scale_auction seq a pct = Ok (tf, rem) -> 0 <= pct -> au_pos tf /\
  (forall r, rem = Some r -> au_pos r).
Proof.
  intros H Hp. apply scale_auction_spec in H as (_ & _ & _ & H1 & H2 & rb & rl & H3 & H4 & ->); [|done].
  split; [split; intros k v Hv; [rewrite H1 in Hv|rewrite H2 in Hv]; eapply (keep_pos _ _ _ Hv)|].
  intros r Hr. destruct (_ && _); [done|]. injection Hr as <-.
  split; simpl; intros k v Hv; [rewrite H3 in Hv|rewrite H4 in Hv]; eapply (keep_pos _ _ _ Hv).
Qed.

Lemma fill_user_sim c p ch tf user filler fpos p' ch' fpos' :
  cwf (c_now c) p ch {[filler := fpos]} -> good (flush p ch {[filler := fpos]}) -> user <> filler -> au_pos tf ->
  fill_user_liq c p ch tf user filler fpos = Ok (p', ch', fpos') ->
  cwf (c_now c) p' ch' {[filler := fpos']} /\ good (flush p' ch' {[filler := fpos']}) /\
  ptrace (c_now c) (flush p ch {[filler := fpos]})
    (LTouch user :: rm_lbls user (au_lot tf) (au_bid tf) ++ add_lbls filler (au_lot tf) (au_bid tf))
    (flush p' ch' {[filler := fpos']}) /\ ps_auct p' = ps_auct p.
Proof.
  intros W G Hne [Hp1 Hp2] H. unfold fill_user_liq in H. mon H.
  destruct (touch_sim _ _ _ _ user W) as [W0 M0]; [by rewrite lookup_singleton_ne|].
  pose proof (pmove_good _ _ _ _ G M0) as G0.
  pose proof (emis_auct _ _ (rm_positions_emis _ _ _ _ _ _ E)) as A1.
  pose proof (emis_auct _ _ (add_positions_emis _ _ _ _ _ _ E0)) as A2. simpl in A1, A2.
  eapply rm_sim in E as (W1 & G1 & T1); [|exact W0|exact G0|by rewrite lookup_insert].
  rewrite insert_insert in *.
  eapply add_sim in E0 as (W2 & G2 & T2); [|exact W1|exact G1|rewrite lookup_insert_ne by done; by rewrite lookup_singleton|done|done].
  rewrite insert_commute in W2, G2, T2 by done. rewrite insert_singleton in *.
  apply writeback in W2 as [W3 Hf]; [|by rewrite lookup_singleton_ne].
  rewrite Hf. split; [done|]. split; [done|]. split; [|by simpl; rewrite A2, A1].
  eapply pt_cons; [exact M0|]. eapply ptrace_app; [exact T1|exact T2].
Qed.

Lemma burn_map_spec l liab m : burn_map l liab = Ok m ->
  forall i v, liab !! i = Some v -> 0 <= i /\ is_Some (l !! Z.to_nat i).
Proof.
  unfold burn_map. intros H i v Hv. apply elem_of_entries in Hv.
  revert H Hv. generalize (∅ : gmap Addr Z). generalize (entries liab). intros es. induction es as [|e es IH]; simpl; intros m0 H Hv.
  - by apply elem_of_nil in Hv.
  - mon1 H. mon E. apply elem_of_cons in Hv as [<-|Hv]; [|by eapply IH].
    simpl in E0. unfold list_get in E0. destruct (i <? 0) eqn:Ei; [discriminate|]. split; [lia|].
    destruct (l !! Z.to_nat i); [by eauto|discriminate].
Qed.

(** every reserve a loop touches is marked for storage *)
Lemma load_store now p ch a r ch1 : load_reserve now p ch a true = Ok (r, ch1) -> ch_store ch1 = ch_store (add_store ch a).
Proof.
  unfold load_reserve, add_store. simpl. destruct (existsb _ _); simpl; destruct (ch_res ch !! a); intros H; mon H; done.
Qed.
Lemma pos_steps_store f now u l : forall p ch pos p' ch' pos', foldM (pos_step f now u) (p, ch, pos) l = Ok (p', ch', pos') ->
  forall a, a ∈ ch_store ch \/ a ∈ l.*1 -> a ∈ ch_store ch'.
Proof.
  induction l as [|[b v] l IH]; simpl; intros p ch pos p' ch' pos' H a Ha.
  - injection H as <- <- <-. destruct Ha as [|Ha]; [done|by apply elem_of_nil in Ha].
  - mon1 H. unfold pos_step in E. mon E.
    match goal with E : load_reserve _ _ _ _ _ = Ok _ |- _ => apply load_store in E as Hs end.
    eapply IH; [exact H|]. simpl in *. rewrite Hs, elem_add_store.
    destruct Ha as [Ha|Ha]; [left; by right|]. apply elem_of_cons in Ha as [->|Ha]; [left; by left|by right].
Qed.
Lemma rm_store now u p ch pos liab p' ch' pos' :
  rm_positions now u (p, ch, pos) ∅ liab = Ok (p', ch', pos') -> forall a v, liab !! a = Some v -> a ∈ ch_store ch'.
Proof.
  unfold rm_positions. rewrite entries_empty. simpl. intros H a v Hv.
  eapply pos_steps_store; [exact H|]. right. apply elem_of_list_fmap. exists (a, v). split; [done|]. by apply elem_of_entries.
Qed.
Lemma flush_log self p ch ov m x :
  (forall a, a ∈ ch_store ch -> is_Some (ch_res ch !! a)) ->
  (forall a v, m !! a = Some v -> a ∈ ch_store ch) ->
  log_burns self ch m x =
  foldr (fun e x => add_log (EvBurn self e.1 e.2
    (match ps_rdata (flush p ch ov) !! e.1 with Some d => rd_d_rate d | None => 0 end)) x) x (entries m).
Proof.
  intros Hs Hm. unfold log_burns.
  assert (forall e, e ∈ entries m -> m !! e.1 = Some e.2) as He by (intros [? ?]; apply elem_of_entries).
  revert He. induction (entries m) as [|e l IH]; intros He; [done|]. cbn [foldr].
  rewrite IH by (intros; apply He; by right). f_equal. f_equal.
  rewrite flush_rdata. assert (e.1 ∈ ch_store ch) as Hst by (eapply Hm, He; left).
  rewrite decide_True by done. destruct (Hs _ Hst) as [r ->]. done.
Qed.

(** a bad debt fill: the bid moves from the backstop to the filler, the lot is drawn,
    and what is left is burned if the backstop is below its threshold *)
Lemma fill_bad_debt_sim c self p x ch tf filler fpos p' ch' fpos' x' :
  cwf (c_now c) p ch {[filler := fpos]} -> good (flush p ch {[filler := fpos]}) -> au_pos tf ->
  fill_bad_debt c self p x ch tf filler fpos = Ok ((p', ch', fpos'), x') ->
  let bs := ps_backstop p in
  cwf (c_now c) p' ch' {[filler := fpos']} /\ good (flush p' ch' {[filler := fpos']}) /\ filler <> bs /\
  ps_auct p' = ps_auct p /\
  exists L1 btok lot x1 m,
    ptrace (c_now c) (flush p ch {[filler := fpos]})
      (LTouch bs :: rm_lbls bs ∅ (au_bid tf) ++ add_lbls filler ∅ (au_bid tf)) L1 /\
    ptrace (c_now c) L1 (rm_lbls bs ∅ m) (flush p' ch' {[filler := fpos']}) /\
    call_backstop_token p x = Ok btok /\ au_lot tf !! btok = Some lot /\
    b_draw (as_contract c self) x self lot filler = Ok x1 /\
    ((m = ∅ /\ x' = x1 /\
        (po_liab (get_pos L1 bs) = ∅ \/ exists pd, call_pool_data p x1 self = Ok pd /\ 3 <= threshold pd)) \/
     (po_liab (get_pos L1 bs) <> ∅ /\ burn_map (ps_list p) (po_liab (get_pos L1 bs)) = Ok m /\
        (exists pd, call_pool_data p x1 self = Ok pd /\ threshold pd < 3) /\
        x' = foldr (fun e x => add_log (EvBurn self e.1 e.2
               (match ps_rdata (flush p' ch' {[filler := fpos']}) !! e.1 with Some d => rd_d_rate d | None => 0 end)) x) x1 (entries m))).
Proof.
  intros W GG [Hp1 Hp2] H. simpl. unfold fill_bad_debt in H. mon H.
  assert (filler <> ps_backstop p) as Hne by lia.
  destruct (touch_sim _ _ _ _ (ps_backstop p) W) as [W0 M0]; [by rewrite lookup_singleton_ne|].
  pose proof (pmove_good _ _ _ _ GG M0) as GG0.
  match goal with E : rm_positions _ _ (p, ch, _) _ _ = Ok (?q1, ?h1, ?b1), E0 : add_positions _ _ _ _ _ = Ok (?q2, ?h2, ?f2) |- _ =>
    rename E into Erm, E0 into Eadd; set (bp := b1) in *; set (pp := q2) in *; set (hh := h2) in *; set (ff := f2) in * end.
  pose proof (rm_positions_emis _ _ _ _ _ _ Erm) as S1. pose proof (add_positions_emis _ _ _ _ _ _ Eadd) as S2. simpl in S1, S2.
  pose proof (emis_trans _ _ _ S1 S2) as S. pose proof (emis_auct _ _ S) as A.
  pose proof (emis_cfg _ _ S) as (_ & _ & Hbs & _ & _ & Hli & _).
  eapply rm_sim in Erm as (W1 & G1 & T1); [|exact W0|exact GG0|by rewrite lookup_insert].
  rewrite insert_insert in *.
  eapply add_sim in Eadd as (W2 & G2 & T2); [|exact W1|exact G1|rewrite lookup_insert_ne by done; by rewrite lookup_singleton|
    intros ? ? Hx; by rewrite lookup_empty in Hx|done].
  fold pp hh ff bp in W1, G1, T1, W2, G2, T2.
  rewrite insert_commute in W2, G2, T2 by done. rewrite insert_singleton in *.
  set (L1 := flush pp hh (<[ps_backstop p := bp]> {[filler := ff]})) in *.
  assert (get_pos L1 (ps_backstop p) = bp) as Hbp.
  { unfold L1. rewrite flush_get_pos, lookup_insert. done. }
  assert (ptrace (c_now c) (flush p ch {[filler := fpos]})
      (LTouch (ps_backstop p) :: rm_lbls (ps_backstop p) ∅ (au_bid tf) ++ add_lbls filler ∅ (au_bid tf)) L1) as T.
  { eapply pt_cons; [exact M0|]. by eapply ptrace_app. }
  assert (call_backstop_token pp x = call_backstop_token p x) as Htok by (unfold call_backstop_token, to_backstop; by rewrite Hbs).
  assert (forall x, call_pool_data pp x self = call_pool_data p x self) as Hpd
    by (intros; unfold call_pool_data, to_backstop; by rewrite Hbs).
  rewrite Htok in *.
  match goal with E : call_backstop_token p x = Ok _ |- _ => rename E into Etok end.
  match goal with E : unwrap (au_lot tf !! btok) = Ok _ |- _ => rename E into Elot end.
  destruct (au_lot tf !! btok) as [lt|] eqn:Elt; [|discriminate]. injection Elot as ->.
  match goal with E : b_draw _ _ _ _ _ = Ok ?x1 |- _ => rename E into Edraw; set (x1' := x1) in * end.
  assert (forall m q h fx, set_pos pp (ps_backstop p) bp = q -> h = hh -> fx = ff -> m = ∅ ->
    cwf (c_now c) q h {[filler := fx]} /\ good (flush q h {[filler := fx]}) /\
    ptrace (c_now c) L1 (rm_lbls (ps_backstop p) ∅ m) (flush q h {[filler := fx]})) as Hplain.
  { intros m q h fx <- -> -> ->. pose proof (writeback _ _ _ _ _ _ W2) as [W3 Hf]; [by rewrite lookup_singleton_ne|].
    rewrite Hf. split; [done|]. split; [done|]. unfold rm_lbls. rewrite entries_empty. constructor. }
  destruct (bool_decide (po_liab bp = ∅)) eqn:Eb.
  { mon H. destruct (Hplain ∅ _ _ _ eq_refl eq_refl eq_refl eq_refl) as (W3 & G3 & T3).
    split; [done|]. split; [done|]. split; [done|]. split; [by simpl; rewrite A|].
    exists L1, btok, lot, x1', ∅. split; [done|]. split; [done|]. split; [done|]. split; [done|]. split; [done|].
    left. split; [done|]. split; [done|]. left. rewrite Hbp. by apply bool_decide_eq_true_1 in Eb. }
  mon1 H.
  match goal with E : call_pool_data pp x1' self = Ok _ |- _ => rewrite Hpd in E; rename E into Epd end.
  destruct (threshold pd <? 3) eqn:Eth.
  - mon H. 
    match goal with E : burn_map _ _ = Ok m |- _ => rename E into Ebm end.
    match goal with E : rm_positions _ _ (pp, hh, bp) _ _ = Ok _ |- _ => rename E into Erm2 end.
    pose proof (rm_positions_emis _ _ _ _ _ _ Erm2) as S3. simpl in S3.
    pose proof (rm_store _ _ _ _ _ _ _ _ _ Erm2) as Hst.
    eapply rm_sim in Erm2 as (W3 & G3 & T3); [|exact W2|exact G2|by rewrite lookup_insert].
    rewrite insert_insert in *.
    pose proof (writeback _ _ _ _ _ _ W3) as [W4 Hf]; [by rewrite lookup_singleton_ne|].
    rewrite Hf. split; [done|]. split; [done|]. split; [done|]. split; [simpl; rewrite (emis_auct _ _ S3); by rewrite A|].
    exists L1, btok, lot, x1', m. split; [done|]. split; [done|]. split; [done|]. split; [done|]. split; [done|].
    right. rewrite Hbp. split; [by apply bool_decide_eq_false_1 in Eb|]. split; [by rewrite <- Hli|].
    split; [exists pd; split; [done|lia]|]. refine (flush_log self _ _ {[filler := ff]} _ _ _ Hst). apply W4.
  - mon H. destruct (Hplain ∅ _ _ _ eq_refl eq_refl eq_refl eq_refl) as (W3 & G3 & T3).
    split; [done|]. split; [done|]. split; [done|]. split; [by simpl; rewrite A|].
    exists L1, btok, lot, x1', ∅. split; [done|]. split; [done|]. split; [done|]. split; [done|]. split; [done|].
    left. split; [done|]. split; [done|]. right. exists pd. split; [done|lia].
Qed.
