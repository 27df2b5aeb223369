(** * Auctions: C17, C18, C19, C20, C21, C22 *)
From Verif Require Import Base Types Token Emitter Factory Backstop PoolReserve PoolUser PoolHealth
  PoolAuction PoolSubmit PoolEmis PoolAdmin World Facts XMove Spec PoolFrame PoolCfg PoolAccrue PoolTrace PoolInv AuctionFacts
  PoolSim PoolReq PoolHF PoolOps PoolLiq PoolReach PoolTx FrameFacts PropsPool1 PropsPool2 PropsPool3.

(** ** Specification of auctions

    Auction kinds [t]: 0 user liquidation, 1 bad debt, 2 interest; [u] is the user, or
    the backstop for kinds 1 and 2.  A fill of [pct] percent takes [ceil(v * pct / 100)]
    of every bid amount and [floor(v * pct / 100)] of every lot amount out of the
    auction; the rest stays. *)
Definition auction (w : World) (a : Addr) (t : Z) (u : Addr) : option Auction := ps_auct (pool w a) !! (t, u).
Definition bid_part (v pct : Z) : Z := cdiv (v * pct) 100.
Definition lot_part (v pct : Z) : Z := v * pct / 100.
(** only positive amounts are stored *)
Definition positive (v : Z) : option Z := if 0 <? v then Some v else None.
(** what remains of an auction; [None] when nothing does *)
Definition remainder (au : Auction) (pct : Z) : option Auction :=
  let rb := omap (fun v => positive (v - bid_part v pct)) (au_bid au) in
  let rl := omap (fun v => positive (v - lot_part v pct)) (au_lot au) in
  if bool_decide (rl = ∅) && bool_decide (rb = ∅) then None else Some (mkAuction rb rl (au_block au)).
(** what the filler pays and gets when the auction is [age] ledgers old *)
Definition charged (v pct age : Z) : Z := cdiv (bid_part v pct * bid_share age) 10000000.
Definition handed (v pct age : Z) : Z := lot_part v pct * lot_share age / 10000000.
Definition filled (au : Auction) (pct age : Z) : Auction :=
  mkAuction (omap (fun v => positive (charged v pct age)) (au_bid au)) (omap (fun v => positive (handed v pct age)) (au_lot au)) (au_block au).

(** a request's percentage: the contract casts the i128 amount to u64 *)
Definition percent (q : Request) : Z := rq_amt q mod 2 ^ 64.
Definition fills (t u : Z) (q : Request) : Prop := rq_type q = 6 + t /\ rq_addr q = u.
(** the auction of kind [t] on [u] after a request by [from] *)
Definition after_request (t u from : Addr) (o : option Auction) (q : Request) : option Auction :=
  if (rq_type q =? 6 + t) && (rq_addr q =? u) then o ≫= fun au => remainder au (percent q)
  else if (rq_type q =? 9) && (t =? 0) && (from =? u) then None else o.

(** ** Lemmas *)
Lemma part_bid v pct : part true v (pct * 100000) = bid_part v pct.
Proof.
  unfold part, bid_part, cdiv. change 10000000 with (100 * 100000). f_equal.
  replace (- (v * (pct * 100000))) with (- (v * pct) * 100000) by lia. by rewrite Z.div_mul_cancel_r.
Qed.
Lemma part_lot v pct : part false v (pct * 100000) = lot_part v pct.
Proof.
  unfold part, lot_part. change 10000000 with (100 * 100000).
  replace (v * (pct * 100000)) with (v * pct * 100000) by lia. by rewrite Z.div_mul_cancel_r.
Qed.
Lemma scale_filled seq au pct tf rem : scale_auction seq au pct = Ok (tf, rem) -> 0 <= pct ->
  1 <= pct <= 100 /\ au_block au <= seq /\ tf = filled au pct (seq - au_block au) /\ rem = remainder au pct.
Proof.
  intros H Hp. apply scale_auction_spec in H as (H1 & H2 & H3 & H4 & H5 & rb & rl & H6 & H7 & ->); [|done].
  split; [done|]. split; [lia|]. split.
  - destruct tf as [b l blk]. unfold filled. cbn [au_bid au_lot au_block] in *. subst blk. f_equal.
    + apply map_eq. intros k. rewrite H4, lookup_omap. destruct (au_bid au !! k) as [v|]; [|done]. cbn [mbind option_bind]. unfold charged. rewrite ?part_bid. done.
    + apply map_eq. intros k. rewrite H5, lookup_omap. destruct (au_lot au !! k) as [v|]; [|done]. cbn [mbind option_bind]. unfold handed. rewrite ?part_lot. done.
  - assert (rb = omap (fun v => positive (v - bid_part v pct)) (au_bid au)) as ->.
    { apply map_eq. intros k. rewrite H6, lookup_omap. destruct (au_bid au !! k) as [v|]; [|done]. cbn [mbind option_bind]. unfold charged. rewrite ?part_bid. done. }
    assert (rl = omap (fun v => positive (v - lot_part v pct)) (au_lot au)) as ->.
    { apply map_eq. intros k. rewrite H7, lookup_omap. destruct (au_lot au !! k) as [v|]; [|done]. cbn [mbind option_bind]. unfold handed. rewrite ?part_lot. done. }
    done.
Qed.

(** only requests 6 to 9 and the auction calls touch auctions *)
Definition noauct (l : label) : Prop := l <> LAuct.
Lemma move_auct now p l p' : pmove now p l p' -> noauct l -> ps_auct p' = ps_auct p.
Proof.
  intros M H. destruct M as [a cfg d0 d' H1 H2 H3|k u a dl cfg d0 n p1 H1 H2 H3 H4 H5 H6 H7|a n d0 H1 H2 H3|k u a cfg d0 cl n p1 H1 H2 H3|u|m]; simpl; try done.
  - apply p_emissions_emis in H5. by apply emis_auct in H5.
  - apply p_emissions_emis in H3. by apply emis_auct in H3.
Qed.
Lemma trace_auct now p ls p' : ptrace now p ls p' -> Forall noauct ls -> ps_auct p' = ps_auct p.
Proof.
  induction 1 as [|p l p1 ls p2 M T IH]; intros H; [done|]. apply Forall_cons in H as [H1 H2].
  rewrite IH by done. by eapply move_auct.
Qed.
Lemma lbls_noauct k u s l : Forall noauct (lbls k u s l).
Proof. induction l as [|e l IH]; simpl; [constructor|]. repeat (constructor; [done|]). done. Qed.
Lemma rm_noauct u c l : Forall noauct (rm_lbls u c l). Proof. apply Forall_app. split; apply lbls_noauct. Qed.
Lemma add_noauct u c l : Forall noauct (add_lbls u c l). Proof. apply Forall_app. split; apply lbls_noauct. Qed.
Lemma cred_noauct l : Forall noauct (cred_lbls l).
Proof. induction l as [|e l IH]; simpl; [constructor|]. repeat (constructor; [done|]). done. Qed.
Lemma bd_noauct u b l es : Forall noauct (bd_lbls u b l es).
Proof. induction es as [|e es IH]; simpl; [constructor|]. apply Forall_app. split; [|done]. destruct (l !! _); repeat (constructor; [done|]); constructor. Qed.
Lemma emis_noauct u ls : only_emis u ls -> Forall noauct ls.
Proof. intros H. apply Forall_forall. intros l Hl. destruct (H l Hl) as (? & ? & ->). done. Qed.
Lemma claim_noauct u es : Forall noauct (claim_lbls u es).
Proof. apply Forall_forall. intros l Hl. apply elem_of_list_fmap in Hl as (? & -> & _). done. Qed.

Lemma after_fill_auct p t u rem : ps_auct (after_fill p t u rem) = partial_alter (fun _ => rem) (t, u) (ps_auct p).
Proof. destruct rem; done. Qed.

Definition fill_ok (seq : Z) (from : Addr) (m : gmap (Z * Addr) Auction) (q : Request) : Prop :=
  forall t, 0 <= t <= 2 -> rq_type q = 6 + t ->
    from <> rq_addr q /\ 1 <= percent q <= 100 /\ exists au, m !! (t, rq_addr q) = Some au /\ au_block au <= seq.

Lemma areq_auct c self from q s ls s' t u : areq c self from q s ls s' -> 0 <= t <= 2 ->
  ps_auct (as_p s') !! (t, u) = after_request t u from (ps_auct (as_p s) !! (t, u)) q /\
  fill_ok (c_seq c) from (ps_auct (as_p s)) q /\
  (rq_type q = 9 -> is_Some (ps_auct (as_p s) !! (0, from))).
Proof.
  intros H Ht. assert (0 <= percent q) as Hpn by (apply Z.mod_pos_bound; done).
  change (as_u64 (rq_amt q)) with (percent q) in *. unfold after_request, fill_ok.
  destruct H as [L x ac chk cfg d L1 L2 d2 dl pin pout ac' Hty Hc M1 Hd1 Hfl M2|L x ac chk au tf rem L1 Hty Hne Hau Hs T
    |L x ac chk au tf rem L1 L2 btok lot x1 x2 m Hty Hne Hnb Hau Hs T1 T2|L x ac chk au tf rem L1 btok bid x1 t2 Hty Hne Hnb Hau Hs Hb1 Hb2 Hb3 Hb4 T|L x ac chk au Hty Hau];
    cbn [as_p]; try rewrite Hty; try change (as_u64 (rq_amt q)) with (percent q) in Hs.
  - apply move_auct in M1; [|done]. apply move_auct in M2; [|done]. rewrite M2, M1.
    rewrite (proj2 (Z.eqb_neq _ (6 + t))) by lia. rewrite (proj2 (Z.eqb_neq _ 9)) by lia. simpl.
    split; [done|]. split; [intros; lia|lia].
  - apply scale_filled in Hs as (Hp & Hbl & _ & ->); [|done]. apply trace_auct in T; [|repeat (constructor; [done|]); apply Forall_app; split; [apply rm_noauct|apply add_noauct]].
    rewrite after_fill_auct, T. split; [|split; [|lia]].
    + destruct (Z.eqb_spec 6 (6 + t)) as [E|E]; simpl.
      * assert (t = 0) as -> by lia. destruct (Z.eqb_spec (rq_addr q) u) as [<-|Hu].
        -- rewrite lookup_partial_alter, Hau. done.
        -- by rewrite lookup_partial_alter_ne by congruence.
      * by rewrite lookup_partial_alter_ne by (intros [= ? ?]; lia).
    + intros t' _ Ht'. assert (t' = 0) as -> by lia. split; [done|]. split; [done|]. eauto.
  - apply scale_filled in Hs as (Hp & Hbl & _ & ->); [|done]. apply trace_auct in T1; [|repeat (constructor; [done|]); apply Forall_app; split; [apply rm_noauct|apply add_noauct]].
    apply trace_auct in T2; [|apply rm_noauct].
    rewrite after_fill_auct, T2, T1. split; [|split; [|lia]].
    + destruct (Z.eqb_spec 7 (6 + t)) as [E|E]; simpl.
      * assert (t = 1) as -> by lia. destruct (Z.eqb_spec (rq_addr q) u) as [<-|Hu].
        -- rewrite lookup_partial_alter, Hau. done.
        -- by rewrite lookup_partial_alter_ne by congruence.
      * by rewrite lookup_partial_alter_ne by (intros [= ? ?]; lia).
    + intros t' _ Ht'. assert (t' = 1) as -> by lia. split; [done|]. split; [done|]. eauto.
  - apply scale_filled in Hs as (Hp & Hbl & _ & ->); [|done]. apply trace_auct in T; [|apply cred_noauct].
    rewrite after_fill_auct, T. split; [|split; [|lia]].
    + destruct (Z.eqb_spec 8 (6 + t)) as [E|E]; simpl.
      * assert (t = 2) as -> by lia. destruct (Z.eqb_spec (rq_addr q) u) as [<-|Hu].
        -- rewrite lookup_partial_alter, Hau. done.
        -- by rewrite lookup_partial_alter_ne by congruence.
      * by rewrite lookup_partial_alter_ne by (intros [= ? ?]; lia).
    + intros t' _ Ht'. assert (t' = 2) as -> by lia. split; [done|]. split; [done|]. eauto.
  - rewrite (proj2 (Z.eqb_neq 9 (6 + t))) by lia. simpl. split; [|split; [intros; lia|eauto]].
    destruct (Z.eqb_spec t 0) as [->|Hn]; simpl.
    + destruct (Z.eqb_spec from u) as [->|Hu]; [by rewrite lookup_delete|by rewrite lookup_delete_ne by congruence].
    + by rewrite lookup_delete_ne by congruence.
Qed.

Lemma areqs_auct c self from s qs ls s' t u : areqs c self from s qs ls s' -> 0 <= t <= 2 ->
  ps_auct (as_p s') !! (t, u) = foldl (after_request t u from) (ps_auct (as_p s) !! (t, u)) qs.
Proof.
  intros H Ht. induction H as [s|s q qs l1 s1 l2 s2 Hamt Hal Hq Hqs IH]; [done|]. simpl.
  rewrite IH. f_equal. by apply (areq_auct _ _ _ _ _ _ _ t u) in Hq as [-> _].
Qed.

(** ** C18: partial fills conserve the auction *)
Lemma bid_part_range v pct : 0 <= v -> 0 <= pct <= 100 -> 0 <= bid_part v pct <= v.
Proof.
  intros Hv Hp. unfold bid_part. split; [apply cdiv_nonneg; nia|]. pose proof (cdiv_spec (v * pct) 100 ltac:(lia)). nia.
Qed.
Lemma lot_part_range v pct : 0 <= v -> 0 <= pct <= 100 -> 0 <= lot_part v pct <= v.
Proof.
  intros Hv Hp. unfold lot_part. split; [apply Z.div_pos; nia|]. pose proof (fdiv_spec (v * pct) 100 ltac:(lia)). nia.
Qed.

(** every auction after a submit, exactly *)
Theorem C18_auctions_after_submit : forall w sg a from spender to qs out w' t u,
  reachable w -> exec w (OPool sg a (PSubmit from spender to qs)) = Ok (out, w') -> 0 <= t <= 2 ->
  auction w' a t u = foldl (after_request t u from) (auction w a t u) qs.
Proof.
  intros w sg a from spender to qs out w' t u Hr H Ht.
  apply submit_tx in H as (G & G' & Hcfg & _ & _ & _ & Hsa & Hta & _ & ls & x1 & ac & chk & t1 & t2 & pos & _ & _ & Hqs & _); [|done].
  apply (areqs_auct _ _ _ _ _ _ _ t u) in Hqs; [|done]. exact Hqs.
Qed.

(** a sequence of fills, given by percentage and age, of one bid or lot amount: the
    parts taken out and the rest add up to the original amount, the filler never gets
    more than the lot nor pays more than the bid; bids are rounded up, lots down *)
Fixpoint taken (part : Z -> Z -> Z) (v : Z) (l : list (Z * Z)) : list (Z * Z) * Z :=
  match l with
  | [] => ([], v)
  | (pct, age) :: l => let '(ts, rest) := taken part (v - part v pct) l in ((part v pct, age) :: ts, rest)
  end.
Lemma share_range age : 0 <= age -> 0 <= bid_share age <= 10000000 /\ 0 <= lot_share age <= 10000000.
Proof. intros H. unfold bid_share, lot_share. destruct (age <=? 200) eqn:E; lia. Qed.
Theorem C18_fill_sequence : forall v l, 0 <= v -> Forall (fun e => 1 <= e.1 <= 100 /\ 0 <= e.2) l ->
  (let '(ts, rest) := taken lot_part v l in
     sumz fst ts + rest = v /\ 0 <= rest /\ sumz (fun e => e.1 * lot_share e.2 / 10000000) ts <= v - rest) /\
  (let '(ts, rest) := taken bid_part v l in
     sumz fst ts + rest = v /\ 0 <= rest /\ sumz (fun e => cdiv (e.1 * bid_share e.2) 10000000) ts <= v - rest).
Proof.
  intros v l. revert v.
  assert (forall part shr, (forall v pct, 0 <= v -> 0 <= pct <= 100 -> 0 <= part v pct <= v) ->
    (forall v age, 0 <= v -> 0 <= age -> shr v age <= v) -> forall v, 0 <= v -> Forall (fun e => 1 <= e.1 <= 100 /\ 0 <= e.2) l ->
    let '(ts, rest) := taken part v l in sumz fst ts + rest = v /\ 0 <= rest /\ sumz (fun e => shr e.1 e.2) ts <= v - rest) as Hg.
  { intros part shr Hpart Hshr. induction l as [|[pct age] l IH]; intros v Hv Hl; [simpl; lia|].
    apply Forall_cons in Hl as [[H1 H2] Hl]. simpl in H1, H2. simpl. pose proof (Hpart v pct Hv ltac:(lia)) as Hp.
    specialize (IH (v - part v pct) ltac:(lia) Hl). destruct (taken part (v - part v pct) l) as [ts rest]. simpl.
    pose proof (Hshr (part v pct) age ltac:(lia) H2). lia. }
  intros v Hv Hl. split.
  - refine (Hg lot_part (fun v age => v * lot_share age / 10000000) lot_part_range _ v Hv Hl).
    intros v0 age H0 Ha. destruct (share_range age Ha) as [_ ?]. pose proof (fdiv_spec (v0 * lot_share age) 10000000 ltac:(lia)). nia.
  - refine (Hg bid_part (fun v age => cdiv (v * bid_share age) 10000000) bid_part_range _ v Hv Hl).
    intros v0 age H0 Ha. destruct (share_range age Ha) as [? _]. pose proof (cdiv_spec (v0 * bid_share age) 10000000 ltac:(lia)). nia.
Qed.
(** rounding: against the filler *)
Theorem C18_rounding : forall v pct,
  v * pct <= 100 * bid_part v pct < v * pct + 100 /\ v * pct - 100 < 100 * lot_part v pct <= v * pct.
Proof.
  intros v pct. pose proof (cdiv_spec (v * pct) 100 ltac:(lia)). pose proof (fdiv_spec (v * pct) 100 ltac:(lia)).
  unfold bid_part, lot_part. lia.
Qed.

(** ** C17: the price curve *)
Theorem C17_curve : forall age, 0 <= age ->
  (age <= 200 -> lot_share age = age * 50000 /\ bid_share age = 10000000) /\
  (200 <= age <= 400 -> lot_share age = 10000000 /\ bid_share age = 10000000 - (age - 200) * 50000) /\
  (400 <= age -> lot_share age = 10000000 /\ bid_share age = 0).
Proof. intros age H. unfold lot_share, bid_share. destruct (Z.leb_spec age 200); lia. Qed.
Lemma curve_waiting : forall v pct age age', 0 <= v -> 0 <= pct <= 100 -> 0 <= age <= age' ->
  handed v pct age <= handed v pct age' /\ charged v pct age' <= charged v pct age.
Proof.
  intros v pct age age' Hv Hp Ha. pose proof (bid_part_range v pct Hv Hp). pose proof (lot_part_range v pct Hv Hp).
  assert (lot_share age <= lot_share age') by (unfold lot_share; lia).
  assert (bid_share age' <= bid_share age) by (unfold bid_share; destruct (Z.leb_spec age 200), (Z.leb_spec age' 200); lia).
  unfold handed, charged. split; [apply Z.div_le_mono; nia|apply cdiv_mono; nia].
Qed.

(** ** C19: fill percentages *)
Lemma areqs_fill_ok c self from s qs ls s' : areqs c self from s qs ls s' -> forall qs1 q qs2, qs = qs1 ++ q :: qs2 ->
  exists s1 l1, areqs c self from s qs1 l1 s1 /\ fill_ok (c_seq c) from (ps_auct (as_p s1)) q /\
    (rq_type q = 9 -> is_Some (ps_auct (as_p s1) !! (0, from))).
Proof.
  intros H qs1 q qs2 ->. apply areqs_app in H as (s1 & l1 & l2 & H1 & H2 & ->).
  inversion H2 as [|? ? ? l0 s0 l0' ? Ha Hal Hq Hqs]; subst. exists s1, l1. split; [done|].
  apply (areq_auct _ _ _ _ _ _ _ 0 0) in Hq as (_ & ? & ?); [done|lia].
Qed.
Theorem C19_percent_in_range : forall w sg a from spender to qs out w' q,
  reachable w -> exec w (OPool sg a (PSubmit from spender to qs)) = Ok (out, w') ->
  q ∈ qs -> 6 <= rq_type q <= 8 -> 1 <= rq_amt q mod 2 ^ 64 <= 100.
Proof.
  intros w sg a from spender to qs out w' q Hr H Hq Ht.
  apply submit_tx in H as (G & G' & Hcfg & _ & _ & _ & Hsa & Hta & _ & ls & x1 & ac & chk & t1 & t2 & pos & _ & _ & Hqs & _); [|done].
  apply elem_of_list_split in Hq as (qs1 & qs2 & ->). destruct (areqs_fill_ok _ _ _ _ _ _ _ Hqs _ _ _ eq_refl) as (s1 & l1 & _ & Hf & _).
  destruct (Hf (rq_type q - 6)) as (_ & Hp & _); [lia|lia|]. exact Hp.
Qed.

(** ** C21: no self-fill, no fill in the ledger of creation *)
Lemma fold_none t u from qs : foldl (after_request t u from) None qs = None.
Proof.
  induction qs as [|q qs IH]; simpl; [done|]. unfold after_request at 2.
  destruct ((rq_type q =? 6 + t) && (rq_addr q =? u)); [exact IH|]. destruct ((rq_type q =? 9) && (t =? 0) && (from =? u)); exact IH.
Qed.
Lemma remainder_block au pct au' : remainder au pct = Some au' -> au_block au' = au_block au.
Proof. unfold remainder. destruct (_ && _); [done|]. by injection 1 as <-. Qed.
Lemma fold_block t u from qs : forall o au', foldl (after_request t u from) o qs = Some au' ->
  exists au, o = Some au /\ au_block au = au_block au'.
Proof.
  induction qs as [|q qs IH]; simpl; intros o au' H; [eauto|].
  apply IH in H as (au1 & H1 & H2). unfold after_request in H1.
  destruct (_ && _); [|destruct (_ && _); [done|eauto]].
  destruct o as [au|]; [|done]. simpl in H1. exists au. split; [done|]. apply remainder_block in H1. congruence.
Qed.
Theorem C21_no_self_fill : forall w sg a from spender to qs out w' t q,
  reachable w -> exec w (OPool sg a (PSubmit from spender to qs)) = Ok (out, w') ->
  q ∈ qs -> 0 <= t <= 2 -> rq_type q = 6 + t ->
  from <> rq_addr q /\ exists au, auction w a t (rq_addr q) = Some au /\ au_block au <= w_seq w.
Proof.
  intros w sg a from spender to qs out w' t q Hr H Hq Ht Hty.
  apply submit_tx in H as (G & G' & Hcfg & _ & _ & _ & Hsa & Hta & _ & ls & x1 & ac & chk & t1 & t2 & pos & _ & _ & Hqs & _); [|done].
  apply elem_of_list_split in Hq as (qs1 & qs2 & ->). destruct (areqs_fill_ok _ _ _ _ _ _ _ Hqs _ _ _ eq_refl) as (s1 & l1 & H1 & Hf & _).
  destruct (Hf t Ht Hty) as (Hne & _ & au & Hau & Hb). split; [done|].
  apply (areqs_auct _ _ _ _ _ _ _ t (rq_addr q)) in H1; [|done]. rewrite Hau in H1. symmetry in H1. apply fold_block in H1 as (au0 & H0 & Hbl).
  cbn [as_p] in H0. exists au0. split; [exact H0|]. rewrite Hbl. exact Hb.
Qed.

(** how one transaction can change an auction *)
Definition opens (a : Addr) (t u : Z) (w : World) (o : Op) : Prop :=
  exists sg, (t = 0 /\ exists pct, o = OPool sg a (PNewLiq u pct)) \/
    (t = 1 /\ u = ps_backstop (pool w a) /\ o = OPool sg a PNewBadDebt) \/
    (t = 2 /\ u = ps_backstop (pool w a) /\ exists l, o = OPool sg a (PNewInterest l)).
Lemma create_bad_debt_new c self p x a p' : create_bad_debt c self p x = Ok (a, p') ->
  ps_auct p !! (1, ps_backstop p) = None /\ au_block a = c_seq c + 1.
Proof.
  unfold create_bad_debt. intros H. apply assert_ok in H as [Hn H]. apply bind_ok in H as (blk & Eb & H).
  apply bind_ok in H as ([? ?] & _ & H). apply bind_ok in H as (? & _ & H). apply bind_ok in H as ([[? ?] ?] & _ & H).
  apply assert_ok in H as [_ H]. do 5 (apply bind_ok in H as (? & _ & H)). injection H as <- <-.
  apply u32_ok in Eb as [-> _]. split; [|done].
  apply negb_true_iff in Hn. unfold has_auction in Hn. apply bool_decide_eq_false in Hn. apply eq_None_not_Some. exact Hn.
Qed.
Lemma create_interest_new c self p x l a p' : create_interest c self p x l = Ok (a, p') ->
  ps_auct p !! (2, ps_backstop p) = None /\ au_block a = c_seq c + 1.
Proof.
  unfold create_interest. intros H. apply assert_ok in H as [Hn H].
  apply bind_ok in H as ([? ?] & _ & H). apply bind_ok in H as (? & _ & H). apply bind_ok in H as (blk & Eb & H). apply bind_ok in H as ([[? ?] ?] & _ & H).
  apply bind_ok in H as (? & _ & H). apply assert_ok in H as [_ H]. apply assert_ok in H as [_ H].
  do 5 (apply bind_ok in H as (? & _ & H)). injection H as <- <-.
  apply u32_ok in Eb as [-> _]. split; [|done].
  apply negb_true_iff in Hn. unfold has_auction in Hn. apply bool_decide_eq_false in Hn. apply eq_None_not_Some. exact Hn.
Qed.

Lemma auct_step w o out w' a t u : reachable w -> exec w o = Ok (out, w') -> 0 <= t <= 2 ->
  auction w' a t u = auction w a t u \/
  (o = OExpireAuction a t u /\ auction w' a t u = None) \/
  (exists sg from spender to qs, o = OPool sg a (PSubmit from spender to qs) /\
     auction w' a t u = foldl (after_request t u from) (auction w a t u) qs) \/
  (auction w a t u = None /\ exists au, opens a t u w o /\ out = OutAuction au /\ auction w' a t u = Some au /\ au_block au = w_seq w + 1).
Proof.
  intros Hr H Ht. pose proof H as H0. unfold auction. apply (exec_pool _ _ _ _ a) in H.
  destruct H as [o out w' H _|sg po out px w' Hsg Hty Hp H Hw' _ _|sg admin salt orc rate mp w' -> Hn Hra Hm H|t' u' w' H|r w' H].
  - left. by rewrite H.
  - rewrite Hw'. destruct (ps_init (pool w a)) eqn:Ei; swap 1 2.
    { (* not initialized: only initialize succeeds *)
      destruct po; simpl in H; rewrite ?Ei in H; try discriminate. unfold on_pool in H. simpl in H. apply bind_ok in H as (p1 & E & H).
      injection H as <- <-. left. simpl. apply initialize_spec in E as (_ & _ & _ & _ & E). rewrite E. done. }
    pose proof (reachable_good _ _ Hr Ei) as G.
    pose proof (p_exec_data _ _ (mkPX (pool w a) (w_ext w)) _ _ _ G Hty H) as Hd. simpl in Hd.
    destruct Hd as [(Hm & _)|[(b & _ & Hs)|(_ & _ & Hk)]].
    + destruct po; simpl in Hm; try discriminate; simpl in H; rewrite Ei in H; simpl in H.
      * right. right. left. exists sg, from, spender, to, reqs. split; [done|].
        pose proof (C18_auctions_after_submit _ _ _ _ _ _ _ _ _ t u Hr H0 Ht) as H18. unfold auction in H18. by rewrite Hw' in H18.
      * left. unfold on_pool in H. apply bind_ok in H as (p1 & E & H). injection H as <- <-. simpl.
        apply bad_debt_sim in E as (_ & _ & _ & T); [|exact G]. apply trace_auct in T; [by rewrite T|].
        repeat (constructor; [done|]). apply bd_noauct.
      * left. unfold ret_z in H. apply bind_ok in H as ([z px1] & E & H). injection H as <- <-.
        apply claim_sim in E as (_ & es & _ & _ & T & _); [|exact G|by apply forallb_nonneg]. apply trace_auct in T; [by rewrite T|apply claim_noauct].
      * apply bind_ok in H as ([au p1] & E & H). injection H as <- <-. simpl in Hty |- *. apply in_u64_iff in Hty.
        apply create_liq_sim in E; [|exact G|lia]. cbv zeta in E.
        destruct E as (_ & _ & Hno & _ & Hb & _ & _ & _ & _ & ls & p2 & Ho & T & ->).
        apply trace_auct in T; [|by eapply emis_noauct]. simpl. rewrite T.
        destruct (decide ((0, user) = (t, u))) as [[= <- <-]|Hne]; [|left; by rewrite lookup_insert_ne].
        right. right. right. split; [exact Hno|]. exists au. split; [|split; [done|rewrite lookup_insert; split; [done|exact Hb]]].
        exists sg. left. split; [done|]. eauto.
      * apply bind_ok in H as ([au p1] & E & H). injection H as <- <-.
        pose proof (create_bad_debt_new _ _ _ _ _ _ E) as [Hno Hb]. apply create_bad_debt_auct in E as ->. simpl.
        destruct (decide ((1, ps_backstop (pool w a)) = (t, u))) as [[= <- <-]|Hne]; [|left; by rewrite lookup_insert_ne].
        right. right. right. split; [exact Hno|]. exists au. split; [|split; [done|rewrite lookup_insert; split; [done|exact Hb]]].
        exists sg. right. left. done.
      * apply bind_ok in H as ([au p1] & E & H). injection H as <- <-.
        pose proof (create_interest_new _ _ _ _ _ _ _ E) as [Hno Hb]. apply create_interest_auct in E as ->. simpl.
        destruct (decide ((2, ps_backstop (pool w a)) = (t, u))) as [[= <- <-]|Hne]; [|left; by rewrite lookup_insert_ne].
        right. right. right. split; [exact Hno|]. exists au. split; [|split; [done|rewrite lookup_insert; split; [done|exact Hb]]].
        exists sg. right. right. split; [done|]. split; [done|]. eauto.
    + left. destruct Hs as (cfg' & _ & _ & -> & _). done.
    + left. destruct Hk as (_ & _ & _ & _ & -> & _). done.
  - left. unfold pool at 2. rewrite Hn. simpl. apply initialize_spec in H as (_ & _ & _ & _ & E). rewrite E. done.
  - rewrite H. simpl. destruct (decide ((t', u') = (t, u))) as [[= -> ->]|Hne]; [|left; by rewrite lookup_delete_ne].
    right. left. split; [done|]. by rewrite lookup_delete.
  - left. by rewrite H.
Qed.
Lemma seq_mono w o out w' : exec w o = Ok (out, w') -> w_seq w <= w_seq w'.
Proof.
  destruct o as [sg o|sg b o|sg ad sa orc ra mp|b|dt ds|orc|n|b t u|b r|]; intros H; simpl in H.
  - apply assert_ok in H as [_ H]. apply bind_ok in H as ([? ?] & _ & H). injection H as <- <-. simpl. lia.
  - apply assert_ok in H as [_ H]. apply bind_ok in H as (? & _ & H). apply bind_ok in H as ([? ?] & _ & H). injection H as <- <-. simpl. lia.
  - apply assert_ok in H as [_ H]. apply bind_ok in H as (? & _ & H). destruct (w_pools w !! _); [done|].
    apply bind_ok in H as (? & _ & H). injection H as <- <-. simpl. lia.
  - mon H. destruct (w_pools w !! b); mon H. simpl. lia.
  - mon H. simpl. lia.
  - mon H. simpl. lia.
  - mon H. simpl. lia.
  - mon H. simpl. lia.
  - mon H. simpl. lia.
  - mon H. simpl. lia.
Qed.
Theorem C21_no_fill_in_ledger_of_creation : forall w o out w1 a t u au l sg from spender to qs q,
  reachable w -> exec w o = Ok (out, w1) -> 0 <= t <= 2 ->
  auction w a t u = None -> auction w1 a t u = Some au ->
  w_seq (run w1 l) = w_seq w -> q ∈ qs -> fills t u q ->
  ~ succeeds (run w1 l) (OPool sg a (PSubmit from spender to qs)).
Proof.
  intros w o out w1 a t u au l sg from spender to qs q Hr H Ht H1 H2 Hs Hq [Hf1 Hf2] (out2 & w3 & H3).
  pose proof (seq_mono _ _ _ _ H) as Hm.
  assert (w_seq w <= w_seq w1 /\ (w_seq w1 = w_seq w -> forall au, auction w1 a t u = Some au -> au_block au = w_seq w + 1)) as Hi.
  { split; [done|]. intros _ au' Hau'.
    destruct (auct_step _ _ _ _ a t u Hr H Ht) as [E|[(_ & E)|[(? & ? & ? & ? & ? & _ & E)|(_ & au0 & _ & _ & E & Hb)]]]; try congruence.
    rewrite H1, fold_none in E. congruence. }
  assert (forall l w1, reachable w1 -> w_seq w <= w_seq w1 /\ (w_seq w1 = w_seq w -> forall au, auction w1 a t u = Some au -> au_block au = w_seq w + 1) ->
    w_seq w <= w_seq (run w1 l) /\ (w_seq (run w1 l) = w_seq w -> forall au, auction (run w1 l) a t u = Some au -> au_block au = w_seq w + 1)) as Hrun.
  { clear - Ht. induction l as [|o l IH]; intros w1 Hr [Hm Hi]; [done|]. simpl. unfold step.
    destruct (exec w1 o) as [[out w2]|] eqn:E; [|by apply IH]. apply IH; [by eapply reachable_step|].
    pose proof (seq_mono _ _ _ _ E) as Hm2. split; [lia|]. intros Hs au Hau.
    assert (w_seq w1 = w_seq w) as Hs1 by lia. specialize (Hi Hs1).
    destruct (auct_step _ _ _ _ a t u Hr E Ht) as [E1|[(_ & E1)|[(? & ? & ? & ? & ? & _ & E1)|(_ & au0 & _ & _ & E1 & Hb)]]].
    - apply Hi. congruence.
    - congruence.
    - rewrite Hau in E1. symmetry in E1. apply fold_block in E1 as (au1 & E1 & Hb). rewrite <- Hb. by apply Hi.
    - assert (au0 = au) by congruence. subst au0. lia. }
  pose proof (reachable_step _ _ _ _ Hr H) as Hr1.
  destruct (Hrun l w1 Hr1 Hi) as [_ Hb].
  destruct (C21_no_self_fill _ _ _ _ _ _ _ _ _ t q (reachable_run _ l Hr1) H3 Hq Ht Hf1) as (_ & au' & Hau' & Hle).
  rewrite Hf2 in Hau'. specialize (Hb Hs _ Hau'). lia.
Qed.

(** ** C22: how a liquidation auction can end *)
Lemma fold_end u from qs : forall au, foldl (after_request 0 u from) (Some au) qs = None ->
  (from = u /\ exists q, q ∈ qs /\ rq_type q = 9) \/
  (exists qs1 q qs2 au', qs = qs1 ++ q :: qs2 /\ fills 0 u q /\ foldl (after_request 0 u from) (Some au) qs1 = Some au' /\ remainder au' (percent q) = None).
Proof.
  induction qs as [|q qs IH]; simpl; intros au H; [done|].
  destruct (after_request 0 u from (Some au) q) as [au1|] eqn:E.
  - destruct (IH _ H) as [(Hf & q' & Hin & Hq')|(qs1 & q' & qs2 & au' & -> & Hfi & Hfo & Hre)].
    + left. split; [done|]. exists q'. split; [by right|done].
    + right. exists (q :: qs1), q', qs2, au'. split; [done|]. split; [done|]. split; [|done]. simpl. by rewrite E.
  - unfold after_request in E. destruct ((rq_type q =? 6 + 0) && (rq_addr q =? u)) eqn:E1.
    + right. exists [], q, qs, au. apply andb_prop in E1 as [? ?]. split; [done|]. split; [split; lia|]. done.
    + destruct ((rq_type q =? 9) && (0 =? 0) && (from =? u)) eqn:E2; [|done].
      left. apply andb_prop in E2 as [E2 ?]. apply andb_prop in E2 as [E2 _]. split; [lia|]. exists q. split; [left|lia].
Qed.
Theorem C22_auction_ends : forall w o out w' a u au,
  reachable w -> exec w o = Ok (out, w') -> auction w a 0 u = Some au -> auction w' a 0 u = None ->
  (* temporary storage expiry *)
  o = OExpireAuction a 0 u \/
  (* a submit whose fills leave nothing of it *)
  (exists sg from spender to qs1 q qs2 au', o = OPool sg a (PSubmit from spender to (qs1 ++ q :: qs2)) /\
     from <> u /\ fills 0 u q /\ foldl (after_request 0 u from) (Some au) qs1 = Some au' /\ remainder au' (percent q) = None) \/
  (* a submit signed by the user, in an active pool, that leaves the user without debt or healthy *)
  (exists sg spender to qs, o = OPool sg a (PSubmit u spender to qs) /\ u ∈ sg /\ (exists q, q ∈ qs /\ rq_type q = 9) /\
     pc_status (ps_config (pool w a)) <= 1 /\
     (po_liab (positions w' a u) = ∅ \/
      (prices_nonneg w a -> exists dec, o_dec (x_orc (w_ext w')) !! pc_oracle (ps_config (pool w' a)) = Some dec /\
       eff_liab (w_now w') (pool w' a) (w_ext w') (positions w' a u) * (10 ^ dec * 10000100 / 10000000)
         <= eff_coll (w_now w') (pool w' a) (w_ext w') (positions w' a u) * 10 ^ dec))).
Proof.
  intros w o out w' a u au Hr H H1 H2.
  destruct (auct_step _ _ _ _ a 0 u Hr H ltac:(lia)) as [E|[(E & _)|[(sg & from & sp & to & qs & -> & E)|(_ & au0 & _ & _ & E & Hb)]]]; [congruence|by left| |congruence].
  right. rewrite H1, H2 in E. symmetry in E. apply fold_end in E as [(-> & q & Hin & Hq)|(qs1 & q & qs2 & au' & -> & Hf & Hfo & Hre)].
  - right. exists sg, sp, to, qs. split; [done|].
    split. { pose proof H as Hx. apply submit_tx in Hx as (_ & _ & _ & _ & Hfr & _); done. }
    split; [by exists q|].
    split. { destruct (C09_status_gates_requests _ _ _ _ _ _ _ _ _ q Hr H Hin) as [Hst _]. apply Hst. by right. }
    destruct (decide (po_liab (positions w' a u) = ∅)) as [He|He]; [by left|]. right. intros Hpr.
    eapply C08_healthy_after_risk; eauto. exists q. split; [done|]. unfold risk_increasing. tauto.
  - left. exists sg, from, sp, to, qs1, q, qs2, au'. split; [done|]. split; [|done].
    destruct Hf as [Hf1 Hf2]. destruct (C21_no_self_fill _ _ _ _ _ _ _ _ _ 0 q Hr H) as [Hne _]; [|lia|lia|congruence].
    apply elem_of_app. right. left.
Qed.

(** ** C20: a liquidation fill moves exactly the scaled lot and bid *)
Lemma account_shares w a k u r : good (pool w a) -> acc_k k (account w a u) r = shares (pool w a) k u r.
Proof.
  intros G. unfold shares. destruct (ps_rcfg (pool w a) !! r) as [cfg|] eqn:Hn.
  - destruct k; simpl; unfold sup_of, coll_of, liab_of, index_of, amount_at, positions; by rewrite Hn.
  - assert (get_k k (get_pos (pool w a) u) !! (-1) = None) as Hz.
    { destruct (get_k k (get_pos (pool w a) u) !! (-1)) eqn:E; [|done]. apply (gd_idx _ G) in E. lia. }
    destruct k; simpl in *; unfold sup_of, coll_of, liab_of, index_of, amount_at, positions; rewrite Hn, Hz; done.
Qed.
Lemma touch_shares p u k v r : shares (touch p u) k v r = shares p k v r.
Proof.
  unfold shares. simpl. destruct (ps_rcfg p !! r); [|done]. f_equal. f_equal. unfold touch. rewrite get_pos_set_ps.
  by destruct (decide (v = u)) as [->|].
Qed.
Lemma trace_account now w w' a f ls k v r : good (pool w a) -> ptrace now (touch (pool w a) f) ls (pool w' a) ->
  acc_k k (account w' a v) r = acc_k k (account w a v) r + sumz (contrib k v r) ls.
Proof.
  intros G T. pose proof (touch_good _ f G) as G1. pose proof (ptrace_good _ _ _ _ G1 T) as G2.
  rewrite !account_shares by done. rewrite (trace_shares _ _ _ _ _ _ _ G1 T). by rewrite touch_shares.
Qed.
Lemma transfer_all_none c from to t t' : transfer_all c from to t ∅ = Ok t' -> forall tok a, balance t' tok a = balance t tok a.
Proof. intros H tok a. rewrite (transfer_all_spec _ _ _ _ _ _ H). unfold getz. rewrite lookup_empty. simpl. destruct (a =? from), (a =? to); lia. Qed.

Theorem C20_fill_moves_exactly : forall w sg a filler spender to u n out w',
  reachable w -> exec w (OPool sg a (PSubmit filler spender to [mkReq 6 u n])) = Ok (out, w') ->
  exists au, auction w a 0 u = Some au /\ auction w' a 0 u = remainder au (n mod 2 ^ 64) /\
    let f := filled au (n mod 2 ^ 64) (w_seq w - au_block au) in
    (forall v r,
       collateral (account w' a v) r = collateral (account w a v) r
         - (if v =? u then amount_at (au_lot f) r else 0) + (if v =? filler then amount_at (au_lot f) r else 0) /\
       owed (account w' a v) r = owed (account w a v) r
         - (if v =? u then amount_at (au_bid f) r else 0) + (if v =? filler then amount_at (au_bid f) r else 0) /\
       supplied (account w' a v) r = supplied (account w a v) r) /\
    (forall r d, reserve w a r = Some d -> exists d', reserve w' a r = Some d' /\
       rd_b_supply d' = rd_b_supply d /\ rd_d_supply d' = rd_d_supply d) /\
    (forall tok v, held w' tok v = held w tok v).
Proof.
  intros w sg a filler spender to u n out w' Hr H.
  pose proof (C18_auctions_after_submit _ _ _ _ _ _ _ _ _ 0 u Hr H ltac:(lia)) as Ha. simpl in Ha. unfold after_request in Ha.
  simpl rq_type in Ha. simpl rq_addr in Ha. rewrite !Z.eqb_refl in Ha. simpl in Ha. change (percent (mkReq 6 u n)) with (n mod 2 ^ 64) in Ha.
  apply submit_tx in H as (G & G' & Hcfg & _ & _ & _ & Hsa & Hta & _ & ls & x1 & ac & chk & t1 & t2 & pos & _ & _ & Hqs & Ht1 & Ht2 & Hx & _); [|done].
  pose proof (areqs_trace _ _ _ _ _ _ _ Hqs) as T. cbn [as_p] in T.
  inversion Hqs as [|? ? ? l1 s1 l2 ? Hamt Hal Hq Hqs']; subst. inversion Hqs'; subst. rewrite app_nil_r in *.
  inversion Hq as [? ? ? ? ? ? ? ? ? ? ? ? ? Ht'|L x ac0 chk0 au tf rem L1 Hty Hne Hau Hs T1|? ? ? ? ? ? ? ? ? ? ? ? ? ? Ht'|? ? ? ? ? ? ? ? ? ? ? ? Ht'|? ? ? ? ? Ht']; subst;
    try (simpl in Ht'; lia).
  simpl in Hau, Hne, T. simpl in Hs. apply scale_filled in Hs as (Hp & Hbl & -> & ->); [|apply as_u64_nonneg].
  change (as_u64 n) with (n mod 2 ^ 64) in *.
  exists au. unfold auction. rewrite Hau. split; [done|].
  split. { unfold auction in Ha. rewrite Hau in Ha. exact Ha. }
  set (f := filled au (n mod 2 ^ 64) (w_seq w - au_block au)) in *.
  cbv zeta. split; [|split].
  - intros v r.
    assert (forall k, acc_k k (account w' a v) r = acc_k k (account w a v) r +
      ((if decide (u = v) then match k with KColl => - amount_at (au_lot f) r | KLiab => - amount_at (au_bid f) r | KSup => 0 end else 0) +
       (if decide (filler = v) then match k with KColl => amount_at (au_lot f) r | KLiab => amount_at (au_bid f) r | KSup => 0 end else 0))) as Hk.
    { intros k. rewrite (trace_account _ _ _ _ _ _ k v r G T). rewrite sumz_cons, !sumz_app, rm_lbls_contrib, add_lbls_contrib. cbn [contrib].
      rewrite sumz_cons, sumz_nil. cbn [contrib].
      change (getz (au_lot f) r) with (amount_at (au_lot f) r). change (getz (au_bid f) r) with (amount_at (au_bid f) r).
      unfold f in *. change (c_seq (ctx w sg)) with (w_seq w) in *. lia. }
    pose proof (Hk KColl) as K1. pose proof (Hk KLiab) as K2. pose proof (Hk KSup) as K3. cbn [acc_k] in K1, K2, K3.
    rewrite K1, K2, K3.
    destruct (Z.eqb_spec v u), (Z.eqb_spec v filler), (decide (u = v)), (decide (filler = v)); try congruence; repeat split; lia.
  - intros r d Hd. change (ps_rdata (touch (pool w a) filler) !! r = Some d) in Hd.
    destruct (trace_supply _ _ _ _ _ _ T Hd) as (d' & Hd' & Hsu & _). exists d'. split; [exact Hd'|].
    pose proof (Hsu KColl) as S1. pose proof (Hsu KLiab) as S2.
    rewrite sumz_cons, !sumz_app, tsup_rm, tsup_add in S1, S2. simpl in S1, S2. lia.
  - intros tok v. unfold held. rewrite Hx. simpl. rewrite (transfer_all_none _ _ _ _ _ Ht2), (transfer_all_none _ _ _ _ _ Ht1). done.
Qed.

(** ** C16: liquidation auctions *)
Lemma raw_bounds now p x pos :
  good p -> (forall k i, 0 <= getz (get_k k pos) i) -> (forall r, r ∈ ps_list p -> 0 <= price_of p x r) ->
  (forall (i : nat) r, ps_list p !! i = Some r -> get_liab pos (Z.of_nat i) <> 0 -> 0 < rc_l_factor (cfg_of p r)) ->
  eff_coll now p x pos <= raw_coll now p x pos /\ 0 <= raw_liab now p x pos <= eff_liab now p x pos.
Proof.
  intros G Hpos Hpr Hlf. unfold eff_coll, raw_coll, raw_liab, eff_liab, over_reserves.
  assert (forall i a, (i, a) ∈ indexed 0 (ps_list p) -> exists cfg, ps_rcfg p !! a = Some cfg /\ cfg_of p a = cfg /\ cfg_bounds cfg /\ 0 <= price_of p x a /\
    SCALAR_9 <= rd_b_rate (data_at now p a) /\ SCALAR_9 <= rd_d_rate (data_at now p a) /\
    (get_liab pos i <> 0 -> 0 < rc_l_factor cfg)) as Hi.
  { intros i a Hin. apply indexed_in in Hin as [Hi0 Hi]. rewrite Z.sub_0_r in Hi.
    destruct (cw_idx _ (gd_cfg _ G) _ _ Hi) as (cfg & Hc & _). exists cfg. split; [done|].
    assert (cfg_of p a = cfg) as Hcf by (unfold cfg_of; by rewrite Hc). split; [done|].
    split; [by eapply cw_valid; [apply G|]|]. split; [apply Hpr; by eapply elem_of_list_lookup_2|].
    destruct (data_rates now p a cfg G Hc) as [? ?]. split; [done|]. split; [done|].
    specialize (Hlf _ _ Hi). rewrite Z2Nat.id, Hcf in Hlf by done. done. }
  split; [|split].
  - apply sumz_le. intros [i a] Hin. destruct (Hi _ _ Hin) as (cfg & Hc & Hcf & Hb & Hp & R1 & R2 & Hl).
    pose proof (Hpos KColl i) as P1. simpl in P1. vals. cbn [fst snd]. unfold coll_eff1, coll_raw1, b_assets. rewrite Hcf. unfold get_coll. destruct Hb as (? & ? & ? & _).
    assert (0 < 10 ^ rc_decimals cfg) by (apply Z.pow_pos_nonneg; lia).
    apply Z.div_le_mono; [done|]. apply Z.mul_le_mono_nonneg_l; [done|].
    assert (0 <= getz (po_coll pos) i * rd_b_rate (data_at now p a) / 1000000000) by (apply Z.div_pos; nia).
    apply Z.div_le_upper_bound; nia.
  - apply sumz_nonneg. intros [i a] Hin. destruct (Hi _ _ Hin) as (cfg & Hc & Hcf & Hb & Hp & R1 & R2 & Hl).
    pose proof (Hpos KLiab i) as P1. simpl in P1. vals. cbn [fst snd]. unfold liab_raw1, d_assets. rewrite Hcf. unfold get_liab. destruct Hb as (? & ? & ? & _).
    assert (0 < 10 ^ rc_decimals cfg) by (apply Z.pow_pos_nonneg; lia).
    apply cdiv_nonneg; [done|]. apply Z.mul_nonneg_nonneg; [done|]. apply cdiv_nonneg; nia.
  - apply sumz_le. intros [i a] Hin. destruct (Hi _ _ Hin) as (cfg & Hc & Hcf & Hb & Hp & R1 & R2 & Hl).
    pose proof (Hpos KLiab i) as P1. simpl in P1. vals. cbn [fst snd]. unfold liab_raw1, liab_eff1, d_assets. rewrite Hcf. unfold get_liab. destruct Hb as (? & ? & ? & _).
    assert (0 < 10 ^ rc_decimals cfg) by (apply Z.pow_pos_nonneg; lia).
    apply cdiv_mono; [done|]. apply Z.mul_le_mono_nonneg_l; [done|].
    assert (0 <= cdiv (getz (po_liab pos) i * rd_d_rate (data_at now p a)) 1000000000) by (apply cdiv_nonneg; nia).
    destruct (Z.eq_dec (get_liab pos i) 0) as [Hz|Hnz].
    + unfold get_liab in Hz. rewrite Hz, Z.mul_0_l. change (cdiv 0 1000000000) with 0. change (0 * 10000000) with 0. unfold cdiv. change (- 0) with 0. rewrite Zdiv_0_l. lia.
    + specialize (Hl Hnz). pose proof (cdiv_spec (cdiv (getz (po_liab pos) i * rd_d_rate (data_at now p a)) 1000000000 * 10000000) (rc_l_factor cfg) Hl). nia.
Qed.

Lemma owed_at w a u (i : nat) r : good (pool w a) -> reserve_list w a !! i = Some r ->
  owed (account w a u) r = get_liab (positions w a u) (Z.of_nat i) /\
  collateral (account w a u) r = get_coll (positions w a u) (Z.of_nat i) /\
  supplied (account w a u) r = get_sup (positions w a u) (Z.of_nat i).
Proof.
  intros G Hi. destruct (cw_idx _ (gd_cfg _ G) _ _ Hi) as (cfg & Hc & Hx).
  unfold account, liab_of, coll_of, sup_of, index_of. simpl. rewrite Hc, Hx. done.
Qed.
Lemma hf_upper now p x pos max dec :
  0 <= eff_coll now p x pos -> 0 <= eff_liab now p x pos -> 0 <= dec -> o_dec (x_orc x) !! pc_oracle (ps_config p) = Some dec ->
  hf_at_most now p x pos max ->
  eff_coll now p x pos * 10 ^ dec < eff_liab now p x pos * (cdiv (10 ^ dec * max) 10000000 + 1).
Proof.
  intros H1 H2 Hd Hdec (dec' & Hdec' & Hnz & h & Hf & Hh). assert (dec' = dec) by congruence. subst dec'.
  apply fdiv_floor_ok in Hf as [-> _]; [|lia].
  pose proof (fdiv_spec (eff_coll now p x pos * 10 ^ dec) (eff_liab now p x pos) ltac:(lia)). nia.
Qed.

Theorem C16_liquidation_auction : forall w sg a u pct out w',
  reachable w -> exec w (OPool sg a (PNewLiq u pct)) = Ok (out, w') ->
  let now := w_now w in let p := pool w a in let x := w_ext w in
  exists au, out = OutAuction au /\
    auction w a 0 u = None /\ auction w' a 0 u = Some au /\ au_block au = w_seq w + 1 /\
    1 <= pct <= 100 /\ u <> a /\ u <> ps_backstop p /\
    eff_coll now p x (positions w a u) <= eff_liab now p x (positions w a u) /\
    (* amounts within the position *)
    (forall r, 0 <= amount_at (au_bid au) r <= owed (account w a u) r /\
       amount_at (au_lot au) r <= collateral (account w a u) r /\
       (prices_nonneg w a -> 0 <= amount_at (au_lot au) r)) /\
    (* the bid is the given percentage of the liabilities, up to the oracle's precision *)
    (exists dec, o_dec (x_orc x) !! pc_oracle (ps_config p) = Some dec /\ 0 <= dec /\
       (forall r, amount_at (au_bid au) r = cdiv (owed (account w a u) r * (pct * 10 ^ dec / 100)) (10 ^ dec)) /\
       (* a partial liquidation leaves a health factor between 1.03 and 1.15 *)
       (pct < 100 -> exists pos',
          (forall (i : nat) r, reserve_list w a !! i = Some r ->
             amount_at (po_coll pos') (Z.of_nat i) = collateral (account w a u) r - amount_at (au_lot au) r /\
             amount_at (po_liab pos') (Z.of_nat i) = owed (account w a u) r - amount_at (au_bid au) r) /\
          (prices_nonneg w a ->
             eff_liab now p x pos' * (10 ^ dec * 10300000 / 10000000) <= eff_coll now p x pos' * 10 ^ dec /\
             eff_coll now p x pos' * 10 ^ dec < eff_liab now p x pos' * (cdiv (10 ^ dec * 11500000) 10000000 + 1)))) /\
    (forall v, positions w' a v = positions w a v).
Proof.
  intros w sg a u pct out w' Hr H. cbv zeta. destruct (tx_good _ _ _ _ _ _ Hr H) as [Hi G]; [done|].
  apply exec_opool in H as (Hty & _ & _ & px & H & Hp' & _ & _). simpl in H. rewrite Hi in H. simpl in H. simpl in Hty. apply in_u64_iff in Hty.
  apply bind_ok in H as ([au p1] & E & H). injection H as <- <-. simpl in Hp'.
  apply create_liq_sim in E; [|exact G|lia]. cbv zeta in E.
  destruct E as (N1 & N2 & Hno & Hpct & Hb & Hel & _ & (dec & wp & Hdec & Hd0 & Hwp & Hwp0 & Hlf & Ham & Hout) & Hpart & ls & p2 & Ho & T & Ep).
  change (get_pos (pool w a) u) with (positions w a u) in *.
  pose proof (ptrace_good _ _ _ _ G T) as G2.
  assert (forall v, positions w' a v = positions w a v) as Hposs.
  { intros v. unfold positions. rewrite Hp', Ep. simpl.
    assert (ps_pos p2 = ps_pos (pool w a)) as Hpp.
    { clear - T Ho. induction T as [|p l p1 ls p2 M T IH]; [done|]. rewrite IH by (intros ? ?; apply Ho; by right).
      destruct (Ho l ltac:(left)) as (id & n & ->). inversion M; subst.
      match goal with E : p_emissions _ _ _ _ _ _ _ _ = Ok _ |- _ => apply p_emissions_emis in E; destruct (emis_ecfg _ _ E) as (_ & _ & ?) end. done. }
    unfold get_pos. simpl. by rewrite Hpp. }
  assert (0 < 10 ^ dec) as Hs by (by apply Z.pow_pos_nonneg).
  assert (prices_nonneg w a -> 0 <= wp) as Hwp1.
  { intros Hpr. assert (forall k i, 0 <= getz (get_k k (positions w a u)) i) as Hnn by (intros k i; by apply pos_ok_getz, G).
    destruct (eff_nonneg (w_now w) (pool w a) (w_ext w) (positions w a u) G (fun k i _ _ => Hnn k _) Hpr Hlf) as [? ?].
    destruct (raw_bounds (w_now w) (pool w a) (w_ext w) (positions w a u) G Hnn Hpr Hlf) as [? ?]. apply Hwp0; simpl; lia. }
  assert (forall r, r ∉ reserve_list w a -> owed (account w a u) r = 0 /\ collateral (account w a u) r = 0) as Hnl.
  { intros r Hr0. pose proof (account_shares w a KLiab u r G) as A1. pose proof (account_shares w a KColl u r G) as A2. cbn [acc_k] in A1, A2. split; [etransitivity; [exact A1|]|etransitivity; [exact A2|]]; clear A1 A2; (unfold shares; destruct (ps_rcfg (pool w a) !! r) as [cfg|] eqn:Ec; [|done]; exfalso; apply Hr0; exact (cw_list _ (gd_cfg _ G) _ _ Ec)). }
  exists au. split; [done|]. split; [exact Hno|].
  split. { unfold auction. rewrite Hp', Ep. simpl. by rewrite lookup_insert. }
  split; [exact Hb|]. split; [done|]. split; [done|]. split; [done|]. split; [exact Hel|].
  assert (forall r, amount_at (au_bid au) r = cdiv (owed (account w a u) r * (pct * 10 ^ dec / 100)) (10 ^ dec) /\
    amount_at (au_lot au) r = cdiv (collateral (account w a u) r * wp) (10 ^ dec)) as Hamt.
  { intros r. destruct (decide (r ∈ reserve_list w a)) as [Hin|Hin].
    - apply elem_of_list_lookup in Hin as [i Hin]. destruct (owed_at w a u i r G Hin) as (O1 & O2 & _). cbn [owed collateral supplied account] in O1, O2 |- *. rewrite O1, O2.
      destruct (Ham i r Hin) as [L B]. unfold amount_at. rewrite L, B. unfold get_liab, get_coll, getz.
      destruct (po_liab (positions w a u) !! Z.of_nat i), (po_coll (positions w a u) !! Z.of_nat i); simpl; split; try done; unfold cdiv; simpl; rewrite Zdiv_0_l; done.
    - destruct (Hnl r Hin) as [-> ->]. destruct (Hout r Hin) as [L B]. unfold amount_at. rewrite L, B. simpl. unfold cdiv. simpl. rewrite Zdiv_0_l. done. }
  assert (0 <= pct * 10 ^ dec / 100 <= 10 ^ dec) as Hpp.
  { split; [apply Z.div_pos; nia|]. apply Z.div_le_upper_bound; nia. }
  assert (forall r, 0 <= amount_at (au_bid au) r <= owed (account w a u) r /\ amount_at (au_lot au) r <= collateral (account w a u) r /\
    (prices_nonneg w a -> 0 <= amount_at (au_lot au) r)) as Hrange.
  { intros r. destruct (Hamt r) as [-> ->]. destruct (account_nonneg w a u r Hr) as (_ & P1 & P2).
    split; [split; [apply cdiv_nonneg; nia|apply cdiv_le_iff; nia]|]. split; [apply cdiv_le_iff; nia|].
    intros Hpr. specialize (Hwp1 Hpr). apply cdiv_nonneg; nia. }
  split; [exact Hrange|]. split; [|exact Hposs].
  exists dec. split; [exact Hdec|]. split; [done|]. split; [intros r; apply Hamt|].
  intros Hlt. destruct (Hpart Hlt) as (pos' & Hleft & Hmost & Hleast). exists pos'.
  assert (forall (i : nat) r, reserve_list w a !! i = Some r ->
    amount_at (po_coll pos') (Z.of_nat i) = collateral (account w a u) r - amount_at (au_lot au) r /\
    amount_at (po_liab pos') (Z.of_nat i) = owed (account w a u) r - amount_at (au_bid au) r /\
    amount_at (po_sup pos') (Z.of_nat i) = supplied (account w a u) r) as Hl3.
  { intros i r Hin. destruct (owed_at w a u i r G Hin) as (O1 & O2 & O3). cbn [owed collateral supplied account] in O1, O2, O3 |- *. rewrite O1, O2, O3. destruct (Hleft i r Hin) as (? & ? & ?). done. }
  split; [intros i r Hin; by destruct (Hl3 i r Hin) as (? & ? & ?)|].
  intros Hpr.
  destruct (eff_nonneg (w_now w) (pool w a) (w_ext w) pos' G) as [E1 E2].
  - intros k i r Hin. destruct (Hl3 i r Hin) as (L1 & L2 & L3). destruct (Hrange r) as (R1 & R2 & _). destruct (account_nonneg w a u r Hr) as (P0 & _ & _).
    change (getz (get_k k pos') (Z.of_nat i)) with (amount_at (get_k k pos') (Z.of_nat i)). destruct k; cbn [get_k]; [rewrite L2|rewrite L1|rewrite L3]; lia.
  - exact Hpr.
  - intros i r Hin Hnz. apply (Hlf i r Hin). destruct (Hl3 i r Hin) as (_ & L2 & _). destruct (Hrange r) as (R1 & _ & _).
    destruct (owed_at w a u i r G Hin) as (O1 & _). unfold get_liab, getz in *. unfold amount_at in L2, R1. fold (positions w a u) in O1. rewrite O1 in L2, R1. unfold get_liab, getz in L2, R1. lia.
  - split; [by apply hf_ineq|by apply hf_upper].
Qed.
