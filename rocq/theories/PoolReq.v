(** * Requests and submit without the cache *)
From Verif Require Import Base Types Token Emitter Factory Backstop PoolReserve PoolUser PoolHealth
  PoolAuction PoolSubmit PoolEmis PoolAdmin World Facts PoolFrame PoolCfg PoolAccrue PoolTrace PoolInv AuctionFacts PoolSim.

(** ** The plain requests: supply, withdraw, borrow, repay *)

(** which of the three position maps a request of type [t] changes *)
Definition req_kind (t : Z) : kind := if t <=? 1 then KSup else if t <=? 3 then KColl else KLiab.
(** [flow t d cur amt]: a request of type [t] for [amt] of a reserve with (accrued) data
    [d], by a user holding [cur] shares, changes the shares by the first component, the
    spender pays in the second and the pool pays out the third *)
Definition flow (t : Z) (d : ResData) (cur amt : Z) : Z * Z * Z :=
  let br := rd_b_rate d in
  let dr := rd_d_rate d in
  if (t =? 0) || (t =? 2) then (amt * 1000000000 / br, amt, 0)
  else if (t =? 1) || (t =? 3) then
    let n := cdiv (amt * 1000000000) br in
    if cur <? n then (- cur, 0, cur * br / 1000000000) else (- n, 0, amt)
  else if t =? 4 then (cdiv (amt * 1000000000) dr, 0, amt)
  else
    let n := amt * 1000000000 / dr in
    if cur <? n then (- cur, amt, amt - cdiv (cur * dr) 1000000000) else (- n, amt, 0).

(** requests that the pool status does not forbid *)
Definition allowed (status t : Z) : Prop :=
  ((t = 4 \/ t = 9) -> status <= 1) /\ ((t = 0 \/ t = 2) -> status <= 3).

(** state between requests: storage with everything pending written back *)
Record AS := mkAS { as_p : PoolSt; as_x : Ext; as_ac : Actions; as_chk : bool }.

Definition after_fill (p : PoolSt) (t : Z) (u : Addr) (rem : option Auction) : PoolSt :=
  match rem with Some a => set_auction p t u a | None => del_auction p t u end.

Definition acted (m m' : gmap Addr Z) (a n : Z) : Prop :=
  forall b, getz m' b = getz m b + if b =? a then n else 0.

(** one request *)
Inductive areq (c : Ctx) (self from : Addr) (q : Request) : AS -> list label -> AS -> Prop :=
| aq_plain L x ac chk cfg d L1 L2 d2 dl pin pout ac' :
    0 <= rq_type q <= 5 ->
    ps_rcfg L !! rq_addr q = Some cfg ->
    pmove (c_now c) L (LAcc (rq_addr q)) L1 ->
    ps_rdata L1 !! rq_addr q = Some d ->
    flow (rq_type q) d (getz (get_k (req_kind (rq_type q)) (get_pos L1 from)) (rc_index cfg)) (rq_amt q) = (dl, pin, pout) ->
    pmove (c_now c) L1 (LPos (req_kind (rq_type q)) from (rq_addr q) dl) L2 ->
    ps_rdata L2 !! rq_addr q = Some d2 ->
    (rq_type q = 4 -> exists ut, utilization d2 = Ok ut /\ ut <= rc_max_util cfg) ->
    0 <= pin -> 0 <= pout ->
    acted (ac_spender ac) (ac_spender ac') (rq_addr q) pin ->
    acted (ac_pool ac) (ac_pool ac') (rq_addr q) pout ->
    areq c self from q (mkAS L x ac chk) [LAcc (rq_addr q); LPos (req_kind (rq_type q)) from (rq_addr q) dl]
      (mkAS L2 x ac' (chk || (rq_type q =? 3) || (rq_type q =? 4)))
| aq_liq L x ac chk au tf rem L1 :
    rq_type q = 6 -> from <> rq_addr q ->
    ps_auct L !! (0, rq_addr q) = Some au ->
    scale_auction (c_seq c) au (as_u64 (rq_amt q)) = Ok (tf, rem) ->
    ptrace (c_now c) L (LTouch (rq_addr q) :: rm_lbls (rq_addr q) (au_lot tf) (au_bid tf) ++ add_lbls from (au_lot tf) (au_bid tf)) L1 ->
    areq c self from q (mkAS L x ac chk)
      ((LTouch (rq_addr q) :: rm_lbls (rq_addr q) (au_lot tf) (au_bid tf) ++ add_lbls from (au_lot tf) (au_bid tf)) ++ [LAuct])
      (mkAS (after_fill L1 0 (rq_addr q) rem) x ac true)
| aq_bad L x ac chk au tf rem L1 L2 btok lot x1 x2 m :
    rq_type q = 7 -> from <> rq_addr q -> from <> ps_backstop L ->
    ps_auct L !! (1, rq_addr q) = Some au ->
    scale_auction (c_seq c) au (as_u64 (rq_amt q)) = Ok (tf, rem) ->
    ptrace (c_now c) L (LTouch (ps_backstop L) :: rm_lbls (ps_backstop L) ∅ (au_bid tf) ++ add_lbls from ∅ (au_bid tf)) L1 ->
    ptrace (c_now c) L1 (rm_lbls (ps_backstop L) ∅ m) L2 ->
    call_backstop_token L x = Ok btok -> au_lot tf !! btok = Some lot ->
    b_draw (as_contract c self) x self lot from = Ok x1 ->
    ((m = ∅ /\ x2 = x1 /\
        (po_liab (get_pos L1 (ps_backstop L)) = ∅ \/ exists pd, call_pool_data L x1 self = Ok pd /\ 3 <= threshold pd)) \/
     (po_liab (get_pos L1 (ps_backstop L)) <> ∅ /\ burn_map (ps_list L) (po_liab (get_pos L1 (ps_backstop L))) = Ok m /\
        (exists pd, call_pool_data L x1 self = Ok pd /\ threshold pd < 3) /\
        x2 = foldr (fun e x => add_log (EvBurn self e.1 e.2 (match ps_rdata L2 !! e.1 with Some d => rd_d_rate d | None => 0 end)) x)
               x1 (entries m))) ->
    areq c self from q (mkAS L x ac chk)
      (((LTouch (ps_backstop L) :: rm_lbls (ps_backstop L) ∅ (au_bid tf) ++ add_lbls from ∅ (au_bid tf)) ++ rm_lbls (ps_backstop L) ∅ m) ++ [LAuct])
      (mkAS (after_fill L2 1 (rq_addr q) rem) x2 ac true)
| aq_int L x ac chk au tf rem L1 btok bid x1 t2 :
    rq_type q = 8 -> from <> rq_addr q -> from <> ps_backstop L ->
    ps_auct L !! (2, rq_addr q) = Some au ->
    scale_auction (c_seq c) au (as_u64 (rq_amt q)) = Ok (tf, rem) ->
    call_backstop_token L x = Ok btok -> au_bid tf !! btok = Some bid ->
    b_donate (as_contract c self) x from self bid = Ok x1 ->
    transfer_all (as_contract c self) self from (x_tok x1) (au_lot tf) = Ok t2 ->
    ptrace (c_now c) L (cred_lbls (entries (au_lot tf))) L1 ->
    areq c self from q (mkAS L x ac chk) (cred_lbls (entries (au_lot tf)) ++ [LAuct])
      (mkAS (after_fill L1 2 (rq_addr q) rem) (x1 <| x_tok := t2 |>) ac chk)
| aq_del L x ac chk au :
    rq_type q = 9 -> ps_auct L !! (0, from) = Some au ->
    areq c self from q (mkAS L x ac chk) [LAuct] (mkAS (del_auction L 0 from) x ac true).

Inductive areqs (c : Ctx) (self from : Addr) : AS -> list Request -> list label -> AS -> Prop :=
| aqs_nil s : areqs c self from s [] [] s
| aqs_cons s q qs ls s1 ls' s2 :
    0 <= rq_amt q -> allowed (pc_status (ps_config (as_p s))) (rq_type q) ->
    areq c self from q s ls s1 -> areqs c self from s1 qs ls' s2 ->
    areqs c self from s (q :: qs) (ls ++ ls') s2.

Lemma after_fill_move now p t u rem : pmove now p LAuct (after_fill p t u rem).
Proof. destruct rem; simpl; apply pm_auct. Qed.

Lemma areq_trace c self from q s ls s' : areq c self from q s ls s' -> ptrace (c_now c) (as_p s) ls (as_p s').
Proof.
  intros H. destruct H; cbn [as_p].
  - eapply pt_cons; [done|]. by apply ptrace_one.
  - eapply ptrace_app; [done|]. apply ptrace_one, after_fill_move.
  - eapply ptrace_app; [eapply ptrace_app; eauto|]. apply ptrace_one, after_fill_move.
  - eapply ptrace_app; [done|]. apply ptrace_one, after_fill_move.
  - apply ptrace_one. apply pm_auct.
Qed.
Lemma areqs_trace c self from s qs ls s' : areqs c self from s qs ls s' -> ptrace (c_now c) (as_p s) ls (as_p s').
Proof. induction 1; [constructor|]. eapply ptrace_app; [by eapply areq_trace|done]. Qed.

(** ** Interest fills *)
Lemma cred_sim now p ch ov a r ch1 n :
  cwf now p ch ov -> good (flush p ch ov) ->
  load_reserve now p ch a true = Ok (r, ch1) -> i128_min <= rd_credit (r_data r) - n <= i128_max ->
  let ch' := cache_reserve ch1 (r <| r_data := r_data r <| rd_credit := rd_credit (r_data r) - n |> |>) in
  cwf now p ch' ov /\ good (flush p ch' ov) /\ ptrace now (flush p ch ov) [LAcc a; LCred a n] (flush p ch' ov).
Proof.
  intros W G Hl Hb. cbv zeta.
  pose proof (load_sim _ _ _ ov _ _ _ W Hl) as (W1 & M1 & Hr & Hst & Ha). cbv zeta in W1, M1, Hr, Hst.
  pose proof (cf_res _ _ _ _ W1 _ _ Hr) as Hlr.
  pose proof (load_res_fields _ _ _ _ _ Hlr) as (cfg & d & Hc & _ & _ & _ & _ & _ & _ & _ & Hac).
  pose proof (accrue_last _ _ _ _ _ Hac) as Hlast.
  set (r' := r <| r_data := r_data r <| rd_credit := rd_credit (r_data r) - n |> |>) in *.
  destruct (cache_store_flush now p p (cache_reserve ch1 r) ov ov a r r' W1 (emis_refl p) Hr Hst) as [W2 Hf]; [done|done|].
  rewrite cache_cache in W2, Hf by done.
  assert (ptrace now (flush p ch ov) [LAcc a; LCred a n] (flush p (cache_reserve ch1 r') ov)) as T.
  { eapply pt_cons; [exact M1|]. apply ptrace_one. rewrite Hf.
    pose proof (pm_cred now (flush p (cache_reserve ch1 r) ov) a n (r_data r)) as Hm.
    assert (ps_rdata (flush p (cache_reserve ch1 r) ov) !! a = Some (r_data r)) as Hd.
    { rewrite flush_rdata, decide_True, Hr by done. done. }
    specialize (Hm Hd Hlast Hb). exact Hm. }
  split; [done|]. split; [by eapply ptrace_good|done].
Qed.

Lemma interest_fill_sim c self filler p ov l ch x ch' x' :
  cwf (c_now c) p ch ov -> good (flush p ch ov) ->
  foldM (interest_fill_one c self filler p) (ch, x) l = Ok (ch', x') ->
  cwf (c_now c) p ch' ov /\ good (flush p ch' ov) /\ ptrace (c_now c) (flush p ch ov) (cred_lbls l) (flush p ch' ov) /\
  exists t, foldM (fun t e => transfer (as_contract c self) t (fst e) self filler (snd e)) (x_tok x) l = Ok t /\
    x' = x <| x_tok := t |>.
Proof.
  revert ch x. induction l as [|[a n] l IH]; simpl; intros ch x W G H.
  - injection H as <- <-. split; [done|]. split; [done|]. split; [constructor|]. exists (x_tok x). split; [done|by destruct x].
  - mon1 H. unfold interest_fill_one in E. mon E. simpl in *.
    match goal with E : i128 _ = Ok _ |- _ => apply i128_ok in E as [-> Hb] end.
    match goal with E : load_reserve _ _ _ _ _ = Ok _ |- _ =>
      eapply cred_sim in E as (W1 & G1 & T1); [|exact W|exact G|exact Hb] end.
    match goal with E : transfer _ _ _ _ _ _ = Ok _ |- _ => rewrite E; simpl end.
    apply IH in H as (W2 & G2 & T2 & t' & Ht & ->); [|done|done].
    split; [done|]. split; [done|]. split; [by eapply (ptrace_app _ _ [LAcc a; LCred a n])|].
    simpl in Ht. exists t'. split; [done|]. done.
Qed.

Lemma as_u64_nonneg n : 0 <= as_u64 n.
Proof. unfold as_u64. apply Z.mod_pos_bound. done. Qed.

Lemma threshold_call p q x self : ps_backstop p = ps_backstop q -> call_pool_data p x self = call_pool_data q x self.
Proof. intros H. unfold call_pool_data, to_backstop. by rewrite H. Qed.
Lemma token_call p q x : ps_backstop p = ps_backstop q -> call_backstop_token p x = call_backstop_token q x.
Proof. intros H. unfold call_backstop_token, to_backstop. by rewrite H. Qed.

(** rates of a cached reserve to be stored are those of the flushed state *)
Lemma lbls_acc_in k u s l a v : (a, v) ∈ l -> LAcc a ∈ lbls k u s l.
Proof.
  intros H. unfold lbls. apply elem_of_list_In, in_flat_map. exists (a, v). split; [by apply elem_of_list_In|]. left. done.
Qed.

(** ** The simulation *)
Definition abs (from : Addr) (s : Loop) : AS :=
  mkAS (flush (lo_p s) (lo_ch s) {[from := lo_pos s]}) (lo_x s) (lo_ac s) (lo_check s).

Lemma require_action_ok ch t : require_action ch t = Ok tt -> allowed (pc_status (ch_cfg ch)) t.
Proof.
  unfold require_action, allowed. intros H. match type of H with (if ?b then _ else _) = _ => destruct b eqn:E end; [discriminate|].
  apply orb_false_iff in E as [E1 E2]. split; intros Ht.
  - apply andb_false_iff in E1 as [E1|E1]; [lia|]. apply orb_false_iff in E1. lia.
  - apply andb_false_iff in E2 as [E1'|E1']; [lia|]. apply orb_false_iff in E1'. lia.
Qed.

Lemma acted_add ac a n ac' : add_spender ac a n = Ok ac' ->
  acted (ac_spender ac) (ac_spender ac') a n /\ ac_pool ac' = ac_pool ac.
Proof.
  unfold add_spender. intros H. mon H. apply i128_ok in E as [-> _]. simpl. split; [|done].
  intros b. unfold getz. destruct (Z.eqb_spec b a) as [->|Hne].
  - rewrite lookup_insert. simpl. lia.
  - rewrite lookup_insert_ne by done. lia.
Qed.
Lemma acted_pool ac a n ac' : add_pool ac a n = Ok ac' ->
  acted (ac_pool ac) (ac_pool ac') a n /\ ac_spender ac' = ac_spender ac.
Proof.
  unfold add_pool. intros H. mon H. apply i128_ok in E as [-> _]. simpl. split; [|done].
  intros b. unfold getz. destruct (Z.eqb_spec b a) as [->|Hne].
  - rewrite lookup_insert. simpl. lia.
  - rewrite lookup_insert_ne by done. lia.
Qed.
Lemma acted_zero m a : acted m m a 0.
Proof. intros b. destruct (b =? a); lia. Qed.

(** the common part of the six plain requests *)
Lemma plain_sim c self from s q k f r ch1 amt p1 pos1 r1 dl pin pout ac' chk' :
  cwf (c_now c) (lo_p s) (lo_ch s) {[from := lo_pos s]} -> good (flush (lo_p s) (lo_ch s) {[from := lo_pos s]}) ->
  0 <= rq_type q <= 5 -> k = req_kind (rq_type q) ->
  (is_add k f /\ 0 < amt /\ dl = amt) \/ (is_rem k f /\ dl = - amt) ->
  load_reserve (c_now c) (lo_p s) (lo_ch s) (rq_addr q) true = Ok (r, ch1) ->
  f (c_now c) (lo_p s) from (lo_pos s) r amt = Ok (p1, pos1, r1) ->
  flow (rq_type q) (r_data r) (getz (get_k k (lo_pos s)) (r_index r)) (rq_amt q) = (dl, pin, pout) ->
  (rq_type q = 4 -> require_util r1 = Ok tt) ->
  0 <= pin -> 0 <= pout ->
  acted (ac_spender (lo_ac s)) (ac_spender ac') (rq_addr q) pin ->
  acted (ac_pool (lo_ac s)) (ac_pool ac') (rq_addr q) pout ->
  chk' = lo_check s || (rq_type q =? 3) || (rq_type q =? 4) ->
  let s' := mkLoop p1 (lo_x s) (cache_reserve ch1 r1) pos1 ac' chk' in
  cwf (c_now c) (lo_p s') (lo_ch s') {[from := lo_pos s']} /\ good (flush (lo_p s') (lo_ch s') {[from := lo_pos s']}) /\
  exists ls, areq c self from q (abs from s) ls (abs from s').
Proof.
  intros W G Ht -> Hf Hl Hp Hfl Hu H1 H2 H3 H4 ->. cbv zeta.
  pose proof (step_sim _ _ _ {[from := lo_pos s]} _ f from _ _ _ _ _ _ _ _ dl W G (lookup_singleton _ _) Hf Hl Hp) as Hs.
  cbv zeta in Hs. rewrite insert_singleton in Hs.
  destruct Hs as (W1 & M1 & Hd & M2 & G1 & G2 & Ha & Ha1 & cfg & Hc & Hi).
  split; [done|]. split; [done|]. eexists.
  assert (r1 = r <| r_data := r_data r1 |>) as Hr1.
  { destruct Hf as [(Hf & _)|(Hf & _)]; [apply (add_changed (req_kind (rq_type q))) in Hp as (_ & (_ & _ & _ & ->) & _)
      |apply (rem_changed (req_kind (rq_type q))) in Hp as (_ & (_ & _ & _ & ->) & _)]; done. }
  assert (r_max_util r = rc_max_util cfg) as Hmu.
  { apply load_reserve_sim with (ov := {[from := lo_pos s]}) in Hl as [Hl _]; [|done].
    unfold load_res in Hl. simpl in Hl. rewrite Hc in Hl. simpl in Hl. mon Hl. done. }
  unfold abs. cbn [lo_p lo_x lo_ch lo_pos lo_ac lo_check].
  eapply (aq_plain _ _ _ _ _ _ _ _ cfg (r_data r) _ _ (r_data r1) dl pin pout); try done.
  - rewrite flush_get_pos, lookup_singleton. by rewrite <- Hi.
  - rewrite flush_rdata. rewrite decide_True; [simpl; by rewrite Ha1, lookup_insert|].
    simpl. apply load_store in Hl. rewrite Hl. apply elem_add_store. by left.
  - intros Ht4. specialize (Hu Ht4). unfold require_util in Hu. mon1 Hu.
    exists u. split; [done|]. rewrite <- Hmu. replace (r_max_util r) with (r_max_util r1) by (by rewrite Hr1).
    destruct (r_max_util r1 <? u) eqn:?; [discriminate|]. lia.
Qed.

Lemma fill_sim c self from q t chk s s' :
  cwf (c_now c) (lo_p s) (lo_ch s) {[from := lo_pos s]} -> good (flush (lo_p s) (lo_ch s) {[from := lo_pos s]}) ->
  (rq_type q = 6 /\ t = 0 /\ chk = true) \/ (rq_type q = 7 /\ t = 1 /\ chk = true) \/ (rq_type q = 8 /\ t = 2 /\ chk = false) ->
  do_fill c self from t chk s q = Ok s' ->
  cwf (c_now c) (lo_p s') (lo_ch s') {[from := lo_pos s']} /\ good (flush (lo_p s') (lo_ch s') {[from := lo_pos s']}) /\
  exists ls, areq c self from q (abs from s) ls (abs from s').
Proof.
  intros W G Ht H. unfold do_fill in H. mon H. cbn [lo_p lo_x lo_ch lo_pos lo_ac lo_check].
  match goal with E : fill _ _ _ _ _ _ _ _ _ _ = Ok _ |- _ => unfold fill in E; mon E end.
  match goal with E : unwrap _ = Ok au |- _ => rename E into Eau end.
  match goal with E : scale_auction _ _ _ = Ok (?a, ?b) |- _ => rename E into Esc; set (tf := a) in *; set (rem := b) in * end.
  assert (ps_auct (lo_p s) !! (t, rq_addr q) = Some au) as Hau by (destruct (_ !! _); [by injection Eau as ->|discriminate]).
  assert (rq_addr q <> from) as Hne by lia.
  destruct (scale_pos _ _ _ _ _ Esc (as_u64_nonneg _)) as [Hpos _].
  match goal with E : (if t =? 0 then _ else _) = Ok (?a, ?b, ?d, ?e) |- _ => rename E into Ef; set (pf := a) in *; set (hf := b) in *; set (ff := d) in *; set (xf := e) in * end.
  assert (forall q', cwf (c_now c) pf hf {[from := ff]} -> good (flush pf hf {[from := ff]}) ->
     q' = match rem with Some a => set_auction pf t (rq_addr q) a | None => del_auction pf t (rq_addr q) end -> ps_auct pf = ps_auct (lo_p s) ->
     cwf (c_now c) q' hf {[from := ff]} /\ good (flush q' hf {[from := ff]}) /\
     flush q' hf {[from := ff]} = after_fill (flush pf hf {[from := ff]}) t (rq_addr q) rem) as Hfin.
  { intros q' W1 GA -> Ha.
    assert (exists m, match rem with Some a => set_auction pf t (rq_addr q) a | None => del_auction pf t (rq_addr q) end = pf <| ps_auct := m |> /\
      after_fill (flush pf hf {[from := ff]}) t (rq_addr q) rem = flush pf hf {[from := ff]} <| ps_auct := m |>) as (m & -> & ->).
    { unfold after_fill. destruct rem; eexists; split; done. }
    destruct (flush_auct _ _ _ _ m W1) as [W2 Hf]. rewrite Hf. split; [done|]. split; [|done].
    eapply pmove_good; [exact GA|]. apply pm_auct. }
  destruct Ht as [(Hq & -> & ->)|[(Hq & -> & ->)|(Hq & -> & ->)]]; simpl in Ef.
  - mon Ef. match goal with E : fill_user_liq _ _ _ _ _ _ _ = Ok _ |- _ => rename E into Ef2 end.
    unfold pf, hf, ff, xf in *. clear pf hf ff xf. subst.
    apply fill_user_sim in Ef2 as (W1 & GA & T1 & A1); [|done|done|done|done].
    destruct (Hfin _ W1 GA eq_refl A1) as (W2 & GB & Hfl).
    split; [exact W2|]. split; [exact GB|]. eexists. unfold abs. cbn [lo_p lo_x lo_ch lo_pos lo_ac lo_check].
    rewrite orb_true_r, Hfl. eapply aq_liq; try done.
  - apply fill_bad_debt_sim in Ef; [|done|done|done]. cbv zeta in Ef.
    destruct Ef as (W1 & GA & Hnb & A1 & L1 & btok & lot & x1 & m & T1 & T2 & Hb1 & Hb2 & Hb3 & Hb4).
    destruct (Hfin _ W1 GA eq_refl A1) as (W2 & GB & Hfl).
    split; [exact W2|]. split; [exact GB|]. eexists. unfold abs. cbn [lo_p lo_x lo_ch lo_pos lo_ac lo_check].
    rewrite orb_true_r, Hfl. eapply aq_bad; try done.
  - mon Ef. match goal with E : fill_interest _ _ _ _ _ _ _ = Ok _ |- _ => rename E into Ef2 end.
    unfold fill_interest in Ef2. mon Ef2.
    match goal with E : foldM (interest_fill_one _ _ _ _) _ _ = Ok _ |- _ => rename E into Efo end.
    apply interest_fill_sim with (ov := {[from := lo_pos s]}) in Efo as (W1 & GA & T1 & t2 & Ht2 & Hx2); [|done|done].
    match goal with H : lo_p s = pf, H' : lo_pos s = ff |- _ => rename H into Hpf, H' into Hff end.
    unfold abs. cbn [lo_p lo_x lo_ch lo_pos lo_ac lo_check]. rewrite !Hpf, !Hff in *.
    destruct (Hfin _ W1 GA eq_refl eq_refl) as (W2 & GB & Hfl).
    split; [exact W2|]. split; [exact GB|]. eexists.
    rewrite orb_false_r, Hfl.
    match goal with E : unwrap (au_bid tf !! _) = Ok _ |- _ => destruct (au_bid tf !! btok) as [b0|] eqn:Eb; [|discriminate E]; injection E as -> end.
    rewrite Hx2. eapply (aq_int _ _ _ _ _ _ _ _ au tf rem _ btok bid x t2); try done; try lia.
    simpl. lia. Unshelve. exact 0.
Qed.

Lemma require_unit (m : res unit) u : m = Ok u -> m = Ok tt.
Proof. by destruct u. Qed.

Lemma rates_pos now p ch ov a r ch1 :
  cwf now p ch ov -> good (flush p ch ov) -> load_reserve now p ch a true = Ok (r, ch1) ->
  0 < rd_b_rate (r_data r) /\ 0 < rd_d_rate (r_data r) /\ r_asset r = a.
Proof.
  intros W G Hl. pose proof (load_sim _ _ _ ov _ _ _ W Hl) as (W1 & M1 & Hr & Hst & Ha). cbv zeta in *.
  pose proof (pmove_good _ _ _ _ G M1) as G1.
  destruct (gd_rate _ G1 a (r_data r)) as (H1 & H2 & _).
  { rewrite flush_rdata, decide_True, Hr by done. done. }
  vals. split; [lia|]. split; [lia|done].
Qed.

Lemma do_request_sim c self from s q s' :
  cwf (c_now c) (lo_p s) (lo_ch s) {[from := lo_pos s]} -> good (flush (lo_p s) (lo_ch s) {[from := lo_pos s]}) ->
  do_request c self from s q = Ok s' ->
  0 <= rq_amt q /\ allowed (pc_status (ps_config (lo_p s))) (rq_type q) /\
  cwf (c_now c) (lo_p s') (lo_ch s') {[from := lo_pos s']} /\ good (flush (lo_p s') (lo_ch s') {[from := lo_pos s']}) /\
  exists ls, areq c self from q (abs from s) ls (abs from s').
Proof.
  intros W G H. unfold do_request in H. mon1 H. mon1 H.
  assert (0 <= rq_amt q) as Hamt by (unfold p_nonneg in E; destruct (rq_amt q <? 0) eqn:?; [discriminate|lia]).
  apply require_unit, require_action_ok in E0. rewrite (cf_cfg _ _ _ _ W) in E0.
  split; [done|]. split; [done|]. clear E E0.
  assert (forall n, 0 <= n -> 0 <= n * 1000000000) as Hnn by (intros; lia).
  assert (forall k i, 0 <= getz (get_k k (lo_pos s)) i) as Hpos.
  { intros k i. pose proof (pos_ok_getz _ from k i (gd_pos _ G)) as Hp. by rewrite flush_get_pos, lookup_singleton in Hp. }
  destruct (Z.eq_dec (rq_type q) 0) as [Et|N0]; [rewrite Et in H|
  destruct (Z.eq_dec (rq_type q) 1) as [Et|N1]; [rewrite Et in H|
  destruct (Z.eq_dec (rq_type q) 2) as [Et|N2]; [rewrite Et in H|
  destruct (Z.eq_dec (rq_type q) 3) as [Et|N3]; [rewrite Et in H|
  destruct (Z.eq_dec (rq_type q) 4) as [Et|N4]; [rewrite Et in H|
  destruct (Z.eq_dec (rq_type q) 5) as [Et|N5]; [rewrite Et in H|
  destruct (Z.eq_dec (rq_type q) 6) as [Et|N6]; [rewrite Et in H|
  destruct (Z.eq_dec (rq_type q) 7) as [Et|N7]; [rewrite Et in H|
  destruct (Z.eq_dec (rq_type q) 8) as [Et|N8]; [rewrite Et in H|
  destruct (Z.eq_dec (rq_type q) 9) as [Et|N9]; [rewrite Et in H|]]]]]]]]]].
  - unfold do_supply in H. mon H.
    match goal with E : load_reserve _ _ _ _ _ = Ok _ |- _ => rename E into El end.
    match goal with E : add_supply _ _ _ _ _ _ = Ok _ |- _ => rename E into Ef end.
    destruct (rates_pos _ _ _ _ _ _ _ W G El) as (Hb & Hd & Hra).
    match goal with E : b_down _ _ = Ok _ |- _ => rename E into Ec end.
    apply fdiv_floor_ok in Ec as [-> _]; [|done].
    pose proof (add_changed KSup _ _ _ _ _ _ _ _ _ _ eq_refl Ef) as (Hz & (_ & _ & _ & Hr1) & _).
    match goal with Ea : add_spender _ _ _ = Ok _ |- _ => apply acted_add in Ea as [Ha1 Ha2] end.
    rewrite ?Hr1 in Ha1; simpl in Ha1; rewrite Hra in Ha1.
    eapply (plain_sim c self from s q KSup add_supply r _ (rq_amt q * SCALAR_9 / rd_b_rate (r_data r)) _ _ _ (rq_amt q * SCALAR_9 / rd_b_rate (r_data r)) (rq_amt q) (0)); [exact W|exact G|lia|by rewrite Et|left; split; [done|]; split; [|done]|exact El|exact Ef|..]; try done.
    + pose proof (Z.div_pos (rq_amt q * SCALAR_9) _ ltac:(vals; lia) Hb). lia.
    + unfold flow. rewrite Et. vals. done.
    + by rewrite Et.
    + rewrite Ha2. apply acted_zero.
    + rewrite Et. simpl. by rewrite ?orb_false_r, ?orb_true_r.
  - unfold do_withdraw in H. mon1 H. mon1 H. mon1 H.
    match goal with E : b_up _ _ = Ok _ |- _ => rename E into Ec end.
    match goal with E : load_reserve _ _ _ _ _ = Ok _ |- _ => rename E into El end.
    destruct (rates_pos _ _ _ _ _ _ _ W G El) as (Hb & Hd & Hra).
    apply fdiv_ceil_ok in Ec as [-> _]; [|done].
    match type of H with context [if ?b then _ else _] => destruct b eqn:Ecap end; mon H;
    try match goal with E : bind _ _ = Ok (_, _) |- _ => mon E | E : Ok _ = Ok (_, _) |- _ => injection E as <- <- end;
    (match goal with E : remove_supply _ _ _ _ _ _ = Ok _ |- _ => rename E into Ef end).
    { match goal with E : asset_from_b _ _ = Ok _ |- _ => apply fmul_floor_ok in E as [-> _]; [|vals; lia] end.
      pose proof (rem_changed KSup _ _ _ _ _ _ _ _ _ _ eq_refl Ef) as (Hz & (_ & _ & _ & Hr1) & _).
      match goal with Ea : add_pool _ _ _ = Ok _ |- _ => apply acted_pool in Ea as [Ha1 Ha2] end.
      rewrite ?Hr1 in Ha1; simpl in Ha1; rewrite Hra in Ha1.
      eapply (plain_sim c self from s q KSup remove_supply r _ (get_sup (lo_pos s) (r_index r)) _ _ _ (- get_sup (lo_pos s) (r_index r)) (0) (get_sup (lo_pos s) (r_index r) * rd_b_rate (r_data r) / SCALAR_9)); [exact W|exact G|lia|by rewrite Et|right; split; done|exact El|exact Ef|..]; try done.
    + unfold flow. rewrite Et. simpl. vals. change (getz (po_sup (lo_pos s)) (r_index r)) with (get_sup (lo_pos s) (r_index r)). by rewrite Ecap.
    + by rewrite Et.
    + apply Z.div_pos; [|vals; lia]. apply Z.mul_nonneg_nonneg; [|lia]. apply (Hpos KSup (r_index r)).
    + rewrite Ha2. apply acted_zero.
    + rewrite Et. simpl. by rewrite ?orb_false_r, ?orb_true_r.
    }
    {pose proof (rem_changed KSup _ _ _ _ _ _ _ _ _ _ eq_refl Ef) as (Hz & (_ & _ & _ & Hr1) & _).
      match goal with Ea : add_pool _ _ _ = Ok _ |- _ => apply acted_pool in Ea as [Ha1 Ha2] end.
      rewrite ?Hr1 in Ha1; simpl in Ha1; rewrite Hra in Ha1.
      eapply (plain_sim c self from s q KSup remove_supply r _ (cdiv (rq_amt q * SCALAR_9) (rd_b_rate (r_data r))) _ _ _ (- cdiv (rq_amt q * SCALAR_9) (rd_b_rate (r_data r))) (0) (rq_amt q)); [exact W|exact G|lia|by rewrite Et|right; split; done|exact El|exact Ef|..]; try done.
    + unfold flow. rewrite Et. simpl. vals. change (getz (po_sup (lo_pos s)) (r_index r)) with (get_sup (lo_pos s) (r_index r)). by rewrite Ecap.
    + by rewrite Et.
    + rewrite Ha2. apply acted_zero.
    + rewrite Et. simpl. by rewrite ?orb_false_r, ?orb_true_r.
    }
  - unfold do_supply_coll in H. mon H.
    match goal with E : load_reserve _ _ _ _ _ = Ok _ |- _ => rename E into El end.
    match goal with E : add_collateral _ _ _ _ _ _ = Ok _ |- _ => rename E into Ef end.
    destruct (rates_pos _ _ _ _ _ _ _ W G El) as (Hb & Hd & Hra).
    match goal with E : b_down _ _ = Ok _ |- _ => rename E into Ec end.
    apply fdiv_floor_ok in Ec as [-> _]; [|done].
    pose proof (add_changed KColl _ _ _ _ _ _ _ _ _ _ eq_refl Ef) as (Hz & (_ & _ & _ & Hr1) & _).
    match goal with Ea : add_spender _ _ _ = Ok _ |- _ => apply acted_add in Ea as [Ha1 Ha2] end.
    rewrite ?Hr1 in Ha1; simpl in Ha1; rewrite Hra in Ha1.
    eapply (plain_sim c self from s q KColl add_collateral r _ (rq_amt q * SCALAR_9 / rd_b_rate (r_data r)) _ _ _ (rq_amt q * SCALAR_9 / rd_b_rate (r_data r)) (rq_amt q) (0)); [exact W|exact G|lia|by rewrite Et|left; split; [done|]; split; [|done]|exact El|exact Ef|..]; try done.
    + pose proof (Z.div_pos (rq_amt q * SCALAR_9) _ ltac:(vals; lia) Hb). lia.
    + unfold flow. rewrite Et. vals. done.
    + by rewrite Et.
    + rewrite Ha2. apply acted_zero.
    + rewrite Et. simpl. by rewrite ?orb_false_r, ?orb_true_r.
  - unfold do_withdraw_coll in H. mon1 H. mon1 H. mon1 H.
    match goal with E : b_up _ _ = Ok _ |- _ => rename E into Ec end.
    match goal with E : load_reserve _ _ _ _ _ = Ok _ |- _ => rename E into El end.
    destruct (rates_pos _ _ _ _ _ _ _ W G El) as (Hb & Hd & Hra).
    apply fdiv_ceil_ok in Ec as [-> _]; [|done].
    match type of H with context [if ?b then _ else _] => destruct b eqn:Ecap end; mon H;
    try match goal with E : bind _ _ = Ok (_, _) |- _ => mon E | E : Ok _ = Ok (_, _) |- _ => injection E as <- <- end;
    (match goal with E : remove_collateral _ _ _ _ _ _ = Ok _ |- _ => rename E into Ef end).
    { match goal with E : asset_from_b _ _ = Ok _ |- _ => apply fmul_floor_ok in E as [-> _]; [|vals; lia] end.
      pose proof (rem_changed KColl _ _ _ _ _ _ _ _ _ _ eq_refl Ef) as (Hz & (_ & _ & _ & Hr1) & _).
      match goal with Ea : add_pool _ _ _ = Ok _ |- _ => apply acted_pool in Ea as [Ha1 Ha2] end.
      rewrite ?Hr1 in Ha1; simpl in Ha1; rewrite Hra in Ha1.
      eapply (plain_sim c self from s q KColl remove_collateral r _ (get_coll (lo_pos s) (r_index r)) _ _ _ (- get_coll (lo_pos s) (r_index r)) (0) (get_coll (lo_pos s) (r_index r) * rd_b_rate (r_data r) / SCALAR_9)); [exact W|exact G|lia|by rewrite Et|right; split; done|exact El|exact Ef|..]; try done.
    + unfold flow. rewrite Et. simpl. vals. change (getz (po_coll (lo_pos s)) (r_index r)) with (get_coll (lo_pos s) (r_index r)). by rewrite Ecap.
    + by rewrite Et.
    + apply Z.div_pos; [|vals; lia]. apply Z.mul_nonneg_nonneg; [|lia]. apply (Hpos KColl (r_index r)).
    + rewrite Ha2. apply acted_zero.
    + rewrite Et. simpl. by rewrite ?orb_false_r, ?orb_true_r.
    }
    {pose proof (rem_changed KColl _ _ _ _ _ _ _ _ _ _ eq_refl Ef) as (Hz & (_ & _ & _ & Hr1) & _).
      match goal with Ea : add_pool _ _ _ = Ok _ |- _ => apply acted_pool in Ea as [Ha1 Ha2] end.
      rewrite ?Hr1 in Ha1; simpl in Ha1; rewrite Hra in Ha1.
      eapply (plain_sim c self from s q KColl remove_collateral r _ (cdiv (rq_amt q * SCALAR_9) (rd_b_rate (r_data r))) _ _ _ (- cdiv (rq_amt q * SCALAR_9) (rd_b_rate (r_data r))) (0) (rq_amt q)); [exact W|exact G|lia|by rewrite Et|right; split; done|exact El|exact Ef|..]; try done.
    + unfold flow. rewrite Et. simpl. vals. change (getz (po_coll (lo_pos s)) (r_index r)) with (get_coll (lo_pos s) (r_index r)). by rewrite Ecap.
    + by rewrite Et.
    + rewrite Ha2. apply acted_zero.
    + rewrite Et. simpl. by rewrite ?orb_false_r, ?orb_true_r.
    }
  - unfold do_borrow in H. mon H.
    match goal with E : load_reserve _ _ _ _ _ = Ok _ |- _ => rename E into El end.
    match goal with E : add_liabilities _ _ _ _ _ _ = Ok _ |- _ => rename E into Ef end.
    destruct (rates_pos _ _ _ _ _ _ _ W G El) as (Hb & Hd & Hra).
    match goal with E : d_up _ _ = Ok _ |- _ => rename E into Ec end.
    apply fdiv_ceil_ok in Ec as [-> _]; [|done].
    pose proof (add_changed KLiab _ _ _ _ _ _ _ _ _ _ eq_refl Ef) as (Hz & (_ & _ & _ & Hr1) & _).
    match goal with Ea : add_pool _ _ _ = Ok _ |- _ => apply acted_pool in Ea as [Ha1 Ha2] end.
    rewrite ?Hr1 in Ha1; simpl in Ha1; rewrite Hra in Ha1.
    eapply (plain_sim c self from s q KLiab add_liabilities r _ (cdiv (rq_amt q * SCALAR_9) (rd_d_rate (r_data r))) _ _ _ (cdiv (rq_amt q * SCALAR_9) (rd_d_rate (r_data r))) (0) (rq_amt q)); [exact W|exact G|lia|by rewrite Et|left; split; [done|]; split; [|done]|exact El|exact Ef|..]; try done.
    + pose proof (cdiv_nonneg (rq_amt q * SCALAR_9) _ Hd ltac:(vals; lia)). lia.
    + unfold flow. rewrite Et. vals. done.
    + intros _. match goal with E : require_util _ = Ok _ |- _ => by apply require_unit in E end.
    + rewrite Ha2. apply acted_zero.
    + rewrite Et. simpl. by rewrite ?orb_false_r, ?orb_true_r.
  - unfold do_repay in H. mon1 H. mon1 H. mon1 H.
    match goal with E : d_down _ _ = Ok _ |- _ => rename E into Ec end.
    match goal with E : load_reserve _ _ _ _ _ = Ok _ |- _ => rename E into El end.
    destruct (rates_pos _ _ _ _ _ _ _ W G El) as (Hb & Hd & Hra).
    apply fdiv_floor_ok in Ec as [-> _]; [|done].
    mon1 H. match goal with Ea : add_spender _ _ _ = Ok _ |- _ => apply acted_add in Ea as [Hs1 Hs2] end. rewrite Hra in Hs1.
    match type of H with (if ?b then _ else _) = Ok _ => destruct b eqn:Ecap end; mon H;
    (match goal with E : remove_liabilities _ _ _ _ _ _ = Ok _ |- _ => rename E into Ef end);
    pose proof (rem_changed KLiab _ _ _ _ _ _ _ _ _ _ eq_refl Ef) as (Hz & (_ & _ & _ & Hr1) & _).
    { match goal with E : asset_from_d _ _ = Ok _ |- _ => apply fmul_ceil_ok in E as [-> _]; [|vals; lia] end.
      match goal with E : i128 _ = Ok _ |- _ => apply i128_ok in E as [-> _] end.
      match goal with E : p_nonneg ?v = Ok _ |- _ => unfold p_nonneg in E; destruct (v <? 0) eqn:Epn; [discriminate E|] end.
      match goal with Ea : add_pool _ _ _ = Ok _ |- _ => apply acted_pool in Ea as [Ha1 Ha2] end.
      rewrite ?Hr1 in Ha1; simpl in Ha1; rewrite Hra in Ha1.
      eapply (plain_sim c self from s q KLiab remove_liabilities r _ (get_liab (lo_pos s) (r_index r)) _ _ _ (- get_liab (lo_pos s) (r_index r)) (rq_amt q) (rq_amt q - cdiv (get_liab (lo_pos s) (r_index r) * rd_d_rate (r_data r)) SCALAR_9)); [exact W|exact G|lia|by rewrite Et|right; split; done|exact El|exact Ef|..]; try done.
      + unfold flow. rewrite Et. simpl. vals. change (getz (po_liab (lo_pos s)) (r_index r)) with (get_liab (lo_pos s) (r_index r)). by rewrite Ecap.
      + lia.
      + by rewrite Ha2.
      + by rewrite <- Hs2.
      + rewrite Et. simpl. by rewrite ?orb_false_r, ?orb_true_r. }
    {eapply (plain_sim c self from s q KLiab remove_liabilities r _ (rq_amt q * SCALAR_9 / rd_d_rate (r_data r)) _ _ _ (- (rq_amt q * SCALAR_9 / rd_d_rate (r_data r))) (rq_amt q) (0)); [exact W|exact G|lia|by rewrite Et|right; split; done|exact El|exact Ef|..]; try done.
      + unfold flow. rewrite Et. simpl. vals. change (getz (po_liab (lo_pos s)) (r_index r)) with (get_liab (lo_pos s) (r_index r)). by rewrite Ecap.
      + rewrite Hs2. apply acted_zero.
      + rewrite Et. simpl. by rewrite ?orb_false_r, ?orb_true_r. }
  - eapply fill_sim; [done|done| |exact H]. tauto.
  - eapply fill_sim; [done|done| |exact H]. tauto.
  - eapply fill_sim; [done|done| |exact H]. tauto.
  - unfold do_delete in H. mon1 H. unfold delete_liquidation in E. mon E. mon H. simpl.
    match goal with G : has_auction _ _ _ = true |- _ => unfold has_auction in G; apply bool_decide_eq_true in G as [au Hau] end.
    destruct (flush_auct _ _ _ _ (delete (0, from) (ps_auct (lo_p s))) W) as [W2 Hf].
    split; [exact W2|]. split.
    + unfold del_auction. rewrite Hf. eapply pmove_good; [exact G|]. apply pm_auct.
    + eexists. unfold abs. simpl. unfold del_auction. rewrite Hf. exact (aq_del c self from q (flush (lo_p s) (lo_ch s) {[from := lo_pos s]}) _ _ _ au Et Hau).
  - destruct (rq_type q) as [|t|t]; [done| |discriminate H]. do 4 (try destruct t as [t|t|]); try done; discriminate H.
  Unshelve. all: exact 0.
Qed.

Lemma do_requests_sim c self from qs s s' :
  cwf (c_now c) (lo_p s) (lo_ch s) {[from := lo_pos s]} -> good (flush (lo_p s) (lo_ch s) {[from := lo_pos s]}) ->
  foldM (do_request c self from) s qs = Ok s' ->
  cwf (c_now c) (lo_p s') (lo_ch s') {[from := lo_pos s']} /\ good (flush (lo_p s') (lo_ch s') {[from := lo_pos s']}) /\
  exists ls, areqs c self from (abs from s) qs ls (abs from s').
Proof.
  revert s. induction qs as [|q qs IH]; simpl; intros s W G H.
  - injection H as <-. split; [done|]. split; [done|]. eexists. constructor.
  - mon1 H. apply do_request_sim in E as (Ha & Hal & W1 & G1 & ls & Hq); [|done|done].
    apply IH in H as (W2 & G2 & ls2 & Hqs); [|done|done]. split; [done|]. split; [done|].
    eexists. by eapply aqs_cons.
Qed.

(** ** Storing the cached reserves *)
Lemma store_cached_flush now p ch ov p' :
  cwf now p ch ov -> store_cached p ch = Ok p' -> p' = withrp (pend ch ∪ ps_rdata p) (ps_pos p) p.
Proof.
  intros W H. unfold store_cached in H.
  assert (forall l q, foldM (fun p a => let? r := unwrap_or (ch_res ch !! a) (PoolE 1209) in Ok (store_res p r)) q l = Ok p' ->
    (forall a r, ch_res ch !! a = Some r -> r_asset r = a) ->
    (forall a, ps_rdata p' !! a = if decide (a ∈ l) then match ch_res ch !! a with Some r => Some (r_data r) | None => ps_rdata q !! a end else ps_rdata q !! a) /\
    p' = withrp (ps_rdata p') (ps_pos q) q) as Hl.
  { induction l as [|b l IH]; simpl; intros q Hq Hres.
    - injection Hq as <-. split; [done|by rewrite withrp_id].
    - destruct (ch_res ch !! b) as [r0|] eqn:Er; [|discriminate]. simpl in Hq.
      pose proof (Hres _ _ Er) as Hra.
      apply IH in Hq as [H1 H2]; [|done]. split.
      + intros a. rewrite H1. simpl. rewrite Hra. destruct (decide (a = b)) as [->|Hne].
        * rewrite Er. rewrite lookup_insert. rewrite (decide_True (P := b ∈ b :: l)) by left. by destruct (decide _).
        * rewrite lookup_insert_ne by done. destruct (decide (a ∈ l)) as [Hin|Hin].
          -- by rewrite decide_True by (by right).
          -- rewrite decide_False; [done|]. rewrite elem_of_cons. tauto.
      + rewrite H2 at 1. destruct q; done. }
  apply Hl in H as [H1 H2].
  - rewrite H2. f_equal. apply map_eq. intros a. rewrite H1.
    pose proof (flush_rdata p ch ov a) as Hf. simpl in Hf. by rewrite Hf.
  - intros a r Hr. apply W in Hr. by apply load_res_fields in Hr as (cfg & d & _ & _ & Ha & _).
Qed.
Lemma store_set_flush now p ch u pos p' :
  cwf now p ch {[u := pos]} -> store_cached p ch = Ok p' -> set_pos p' u pos = flush p ch {[u := pos]}.
Proof.
  intros W H. apply (store_cached_flush _ _ _ _ _ W) in H as ->. unfold set_pos, flush. simpl.
  rewrite insert_union_singleton_l. done.
Qed.
