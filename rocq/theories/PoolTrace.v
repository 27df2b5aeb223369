(** * What pool calls do to the pool storage, as sequences of elementary moves

    The contract works on an in-memory cache of reserves and on loaded user
    positions and writes both back at the end of a call.  [flush] is the storage as
    it would be if everything pending were written back; the lemmas here show that
    every step of a call is a sequence of [pmove]s between flushed states. *)
From Verif Require Import Base Types Token Emitter Factory Backstop PoolReserve PoolUser PoolHealth
  PoolAuction PoolSubmit PoolEmis PoolAdmin World Facts PoolFrame PoolCfg PoolAccrue.

(** ** Elementary moves *)
Inductive label :=
| LAcc (a : Addr)                            (* interest of reserve [a] accrued to now *)
| LPos (k : kind) (u a : Addr) (d : Z)       (* position of [u] in [a] and the share supply change by [d] *)
| LCred (a : Addr) (n : Z)                   (* backstop credit of [a] reduced by [n] *)
| LEmis (u : Addr) (id : Z) (claim : bool) (n : Z)  (* emissions of [u] brought up to date, [n] paid *)
| LTouch (u : Addr)                          (* position record written back unchanged *)
| LAuct.                                     (* auctions changed *)

Inductive pmove (now : Z) (p : PoolSt) : label -> PoolSt -> Prop :=
| pm_acc a cfg d d' :
    ps_rcfg p !! a = Some cfg -> ps_rdata p !! a = Some d ->
    accrue now (pc_bstop_rate (ps_config p)) cfg d = Ok d' ->
    pmove now p (LAcc a) (p <| ps_rdata := <[a := d']> (ps_rdata p) |>)
| pm_pos k u a dl cfg d n p1 :
    ps_rcfg p !! a = Some cfg -> ps_rdata p !! a = Some d -> rd_last_time d = now -> dl <> 0 ->
    p_emissions now p (tid k (rc_index cfg)) (sup_k k d) (10 ^ rc_decimals cfg) u
      (ebal k (get_pos p u) (rc_index cfg)) false = Ok (n, p1) ->
    0 <= getz (get_k k (get_pos p u)) (rc_index cfg) + dl <= i128_max ->
    i128_min <= sup_k k d + dl <= i128_max ->
    pmove now p (LPos k u a dl)
      (p1 <| ps_rdata := <[a := set_sup_k k (sup_k k d + dl) d]> (ps_rdata p) |>
          <| ps_pos := <[u := set_k k (put (get_k k (get_pos p u)) (rc_index cfg)
                                (getz (get_k k (get_pos p u)) (rc_index cfg) + dl)) (get_pos p u)]> (ps_pos p) |>)
| pm_cred a n d :
    ps_rdata p !! a = Some d -> rd_last_time d = now -> i128_min <= rd_credit d - n <= i128_max ->
    pmove now p (LCred a n) (p <| ps_rdata := <[a := d <| rd_credit := rd_credit d - n |>]> (ps_rdata p) |>)
| pm_emis k u a cfg d cl n p1 :
    ps_rcfg p !! a = Some cfg -> ps_rdata p !! a = Some d ->
    p_emissions now p (tid k (rc_index cfg)) (sup_k k d) (10 ^ rc_decimals cfg) u
      (ebal k (get_pos p u) (rc_index cfg)) cl = Ok (n, p1) ->
    pmove now p (LEmis u (tid k (rc_index cfg)) cl n) p1
| pm_touch u : pmove now p (LTouch u) (p <| ps_pos := <[u := get_pos p u]> (ps_pos p) |>)
| pm_auct m : pmove now p LAuct (p <| ps_auct := m |>).

Inductive ptrace (now : Z) : PoolSt -> list label -> PoolSt -> Prop :=
| pt_nil p : ptrace now p [] p
| pt_cons p l p1 ls p2 : pmove now p l p1 -> ptrace now p1 ls p2 -> ptrace now p (l :: ls) p2.

Lemma ptrace_app now p l1 q l2 r : ptrace now p l1 q -> ptrace now q l2 r -> ptrace now p (l1 ++ l2) r.
Proof. induction 1; simpl; [done|]. intros. eapply pt_cons; eauto. Qed.
Lemma ptrace_one now p l q : pmove now p l q -> ptrace now p [l] q.
Proof. intros. eapply pt_cons; [done|constructor]. Qed.
Lemma ptrace_inv (P : PoolSt -> Prop) now p l q :
  (forall p l q, P p -> pmove now p l q -> P q) -> P p -> ptrace now p l q -> P q.
Proof. intros Hs Hp H. induction H; eauto. Qed.
Lemma ptrace_snoc_inv now p ls l q :
  ptrace now p (ls ++ [l]) q -> exists p1, ptrace now p ls p1 /\ pmove now p1 l q.
Proof.
  revert p. induction ls as [|l0 ls IH]; simpl; intros p H; inversion H; subst.
  - match goal with H : ptrace _ _ [] _ |- _ => inversion H; subst end. eexists; split; [constructor|done].
  - match goal with H : ptrace _ _ (_ ++ _) _ |- _ => apply IH in H as (p1' & ? & ?) end. eexists; split; [eapply pt_cons; eauto|done].
Qed.
Lemma ptrace_app_inv now p l1 l2 r :
  ptrace now p (l1 ++ l2) r -> exists q, ptrace now p l1 q /\ ptrace now q l2 r.
Proof.
  revert p. induction l1 as [|l l1 IH]; simpl; intros p H; [eexists; split; [constructor|done]|].
  inversion H; subst. match goal with H : ptrace _ _ (_ ++ _) _ |- _ => apply IH in H as (q & ? & ?) end.
  exists q. split; [eapply pt_cons; eauto|done].
Qed.

(** ** Emission updates do not look at reserve data and positions *)
Definition withrp (rd : gmap Addr ResData) (po : gmap Addr Positions) (p : PoolSt) : PoolSt :=
  p <| ps_rdata := rd |> <| ps_pos := po |>.

Lemma p_emissions_withrp rd po now p id s sc u bal cl n p1 :
  p_emissions now p id s sc u bal cl = Ok (n, p1) ->
  p_emissions now (withrp rd po p) id s sc u bal cl = Ok (n, withrp rd po p1).
Proof.
  unfold p_emissions. simpl. destruct (ps_ecfg p !! id) as [cfg|]; [|by intros [= <- <-]].
  intros H. mon H.
  assert (update_edata now (withrp rd po p) id s sc cfg = Ok (e, withrp rd po p0)) as ->.
  { clear -E. unfold update_edata in *. simpl. destruct (ps_edata p !! id) as [d|]; [|discriminate]. simpl in *.
    destruct (_ || _); mon E; [done|].
    repeat match goal with H : ?x = Ok _ |- context [?x] => rewrite H; simpl end. done. }
  simpl. clear -H. unfold update_user_emis in *. simpl.
  destruct (ps_uemis p0 !! (u, id)) as [ud|].
  - destruct (_ || _); [|by injection H as <- <-]. destruct (bal =? 0).
    + unfold set_user_emis in *. destruct cl; by injection H as <- <-.
    + mon H. repeat match goal with H : ?x = Ok _ |- context [?x] => rewrite H; simpl end.
      unfold set_user_emis in *. destruct cl; by injection H as <- <-.
  - destruct (bal =? 0).
    + unfold set_user_emis in *. destruct cl; by injection H as <- <-.
    + mon H. repeat match goal with H : ?x = Ok _ |- context [?x] => rewrite H; simpl end.
      unfold set_user_emis in *. destruct cl; by injection H as <- <-.
Qed.

(** ** Flushing *)
Definition pend (ch : Cache) : gmap Addr ResData :=
  r_data <$> filter (fun e => e.1 ∈ ch_store ch) (ch_res ch).
Definition flush (p : PoolSt) (ch : Cache) (ov : gmap Addr Positions) : PoolSt :=
  withrp (pend ch ∪ ps_rdata p) (ov ∪ ps_pos p) p.

Lemma pend_lookup ch a :
  pend ch !! a = if decide (a ∈ ch_store ch) then r_data <$> ch_res ch !! a else None.
Proof.
  unfold pend. rewrite lookup_fmap. destruct (ch_res ch !! a) as [r|] eqn:E.
  - destruct (decide (a ∈ ch_store ch)).
    + erewrite map_filter_lookup_Some_2; eauto.
    + rewrite map_filter_lookup_None_2; [done|]. right. intros x Hx. by simpl.
  - rewrite map_filter_lookup_None_2 by (by left). by destruct (decide _).
Qed.
Lemma flush_rdata p ch ov a :
  ps_rdata (flush p ch ov) !! a =
  if decide (a ∈ ch_store ch) then match ch_res ch !! a with Some r => Some (r_data r) | None => ps_rdata p !! a end
  else ps_rdata p !! a.
Proof.
  simpl. destruct (pend ch !! a) as [d|] eqn:E.
  - rewrite (lookup_union_Some_l _ _ _ _ E). rewrite pend_lookup in E.
    destruct (decide _); [|done]. by destruct (ch_res ch !! a).
  - rewrite lookup_union_r by done. rewrite pend_lookup in E. destruct (decide _); [|done].
    by destruct (ch_res ch !! a).
Qed.
Lemma flush_get_pos p ch ov u :
  get_pos (flush p ch ov) u = match ov !! u with Some pos => pos | None => get_pos p u end.
Proof.
  unfold get_pos. simpl. destruct (ov !! u) as [pos|] eqn:E.
  - by rewrite (lookup_union_Some_l _ _ _ _ E).
  - by rewrite lookup_union_r.
Qed.

Lemma accrue_last now rate cfg d d' : accrue now rate cfg d = Ok d' -> rd_last_time d' = now.
Proof.
  unfold accrue. intros H. destruct (now =? rd_last_time d) eqn:E; [mon H; lia|].
  destruct (rd_b_supply d =? 0); [by mon H|]. mon H.
  destruct (util =? 0); [by mon H|]. mon H. destruct (0 <? acc); by mon H.
Qed.
Lemma accrue_id now rate cfg d : rd_last_time d = now -> accrue now rate cfg d = Ok d.
Proof. intros <-. unfold accrue. by rewrite Z.eqb_refl. Qed.

(** cached reserves are what a load from the flushed state would give *)
Record cwf (now : Z) (p : PoolSt) (ch : Cache) (ov : gmap Addr Positions) : Prop := {
  cf_cfg : ch_cfg ch = ps_config p;
  cf_res : forall a r, ch_res ch !! a = Some r -> load_res now (ps_config p) (flush p ch ov) a = Ok r;
  cf_store : forall a, a ∈ ch_store ch -> is_Some (ch_res ch !! a)
}.

Lemma pool_load_cwf now p ov : cwf now p (pool_load p) ov.
Proof. constructor; simpl; [done|intros ? ? H; by rewrite lookup_empty in H|intros ? H; by apply elem_of_nil in H]. Qed.

Lemma load_res_ext now pc p q a :
  ps_rcfg p = ps_rcfg q -> ps_rdata p !! a = ps_rdata q !! a -> load_res now pc p a = load_res now pc q a.
Proof. intros H1 H2. unfold load_res. by rewrite H1, H2. Qed.

Definition add_store (ch : Cache) (a : Addr) : Cache :=
  if existsb (Z.eqb a) (ch_store ch) then ch else ch <| ch_store := ch_store ch ++ [a] |>.
Lemma elem_add_store ch a b : b ∈ ch_store (add_store ch a) <-> b = a \/ b ∈ ch_store ch.
Proof.
  unfold add_store. destruct (existsb _ _) eqn:E; simpl.
  - split; [by right|]. intros [->|]; [|done]. apply existsb_exists in E as (c & Hc & Hac).
    apply Z.eqb_eq in Hac as ->. by apply elem_of_list_In.
  - rewrite elem_of_app, elem_of_list_singleton. tauto.
Qed.
Lemma add_store_res ch a : ch_res (add_store ch a) = ch_res ch.
Proof. unfold add_store. by destruct (existsb _ _). Qed.
Lemma add_store_cfg ch a : ch_cfg (add_store ch a) = ch_cfg ch.
Proof. unfold add_store. by destruct (existsb _ _). Qed.

Lemma load_reserve_sim now p ch ov a (st : bool) r ch1 :
  cwf now p ch ov -> load_reserve now p ch a st = Ok (r, ch1) ->
  load_res now (ps_config p) (flush p ch ov) a = Ok r /\ ch1 = (if st then add_store ch a else ch).
Proof.
  intros W H. unfold load_reserve in H.
  assert ((if st && negb (existsb (Z.eqb a) (ch_store ch)) then ch <| ch_store := ch_store ch ++ [a] |> else ch)
          = (if st then add_store ch a else ch)) as Heq.
  { unfold add_store. destruct st; simpl; [|done]. by destruct (existsb _ _). }
  rewrite Heq in H.
  assert (ch_res (if st then add_store ch a else ch) = ch_res ch) as Hr by (destruct st; [apply add_store_res|done]).
  rewrite Hr in H. destruct (ch_res ch !! a) as [r0|] eqn:Er.
  - injection H as <- <-. split; [|done]. by apply W.
  - mon H. split; [|done].
    assert (ch_cfg (if st then add_store ch a else ch) = ps_config p) as Hc
      by (destruct st; [rewrite add_store_cfg|]; apply W).
    rewrite Hc in E. rewrite <- E. apply load_res_ext; [done|]. rewrite flush_rdata, Er. by destruct (decide _).
Qed.

(** caching a reserve without marking it for storage *)
Lemma cache_nostore_sim now p ch ov a r :
  cwf now p ch ov -> load_res now (ps_config p) (flush p ch ov) a = Ok r ->
  cwf now p (cache_reserve ch r) ov /\ flush p (cache_reserve ch r) ov = flush p ch ov.
Proof.
  intros W Hl. pose proof (load_res_fields _ _ _ _ _ Hl) as (cfg & d & Hc & Hd & Ha & _ & _ & _ & _ & _ & Hac).
  assert (forall b, ps_rdata (flush p (cache_reserve ch r) ov) !! b = ps_rdata (flush p ch ov) !! b) as Hsame.
  { intros b. rewrite !flush_rdata. simpl. destruct (decide _) as [Hin|]; [|done].
    destruct (decide (r_asset r = b)) as [<-|Hne]; [|by rewrite lookup_insert_ne].
    rewrite lookup_insert. destruct (cf_store _ _ _ _ W _ Hin) as [r' Hr']. rewrite Hr'.
    apply W in Hr'. rewrite Ha in Hr'. congruence. }
  split.
  - constructor; simpl; [apply W|..].
    + intros b r' Hr'. rewrite (load_res_ext _ _ _ (flush p ch ov)); [|done|by apply Hsame].
      destruct (decide (b = r_asset r)) as [->|Hne].
      * rewrite lookup_insert in Hr'. injection Hr' as <-. by rewrite Ha.
      * rewrite lookup_insert_ne in Hr' by done. by apply W.
    + intros b Hb. destruct (decide (b = r_asset r)) as [->|Hne]; [rewrite lookup_insert; eauto|].
      rewrite lookup_insert_ne by done. by apply W.
  - unfold flush, withrp. f_equal. unfold set; simpl. destruct p; simpl in *. f_equal.
    apply map_eq. intros b. specialize (Hsame b). by simpl in Hsame.
Qed.

(** writing reserve data through the cache *)
Lemma cache_store_flush now p p1 ch ov ov' a r r' :
  cwf now p ch ov -> same_but_emis p p1 -> ch_res ch !! a = Some r -> a ∈ ch_store ch ->
  r' = r <| r_data := r_data r' |> -> rd_last_time (r_data r') = now ->
  cwf now p1 (cache_reserve ch r') ov' /\
  flush p1 (cache_reserve ch r') ov' =
    withrp (<[a := r_data r']> (ps_rdata (flush p ch ov))) (ov' ∪ ps_pos p) p1.
Proof.
  intros W Hs Hr Hst Hr' Hlast.
  pose proof (cf_res _ _ _ _ W _ _ Hr) as Hl.
  pose proof (load_res_fields _ _ _ _ _ Hl) as (cfg & d & Hc & Hd & Ha & Hi & _ & _ & _ & Hsc & Hac).
  assert (r_asset r' = a) as Ha' by (by rewrite Hr').
  assert (ps_rdata (flush p1 (cache_reserve ch r') ov') = <[a := r_data r']> (ps_rdata (flush p ch ov))) as Hrd.
  { apply map_eq. intros b. rewrite flush_rdata. simpl. rewrite Ha'. destruct (decide (b = a)) as [->|Hne].
    - by rewrite decide_True, !lookup_insert.
    - rewrite !lookup_insert_ne by done. pose proof (flush_rdata p ch ov b) as Hf. simpl in Hf. rewrite Hf.
      by rewrite (emis_rdata _ _ Hs). }
  assert (ps_config p1 = ps_config p /\ ps_rcfg p1 = ps_rcfg p) as [Hcf Hrc].
  { apply emis_cfg in Hs as (? & ? & ? & ? & ? & ? & ? & _). done. }
  split.
  - constructor; simpl; [rewrite Hcf; apply W|..].
    + intros b rb Hb. rewrite Ha' in Hb. destruct (decide (b = a)) as [->|Hne].
      * rewrite lookup_insert in Hb. injection Hb as <-.
        unfold load_res. rewrite Hcf. rewrite Hrd, lookup_insert. simpl. rewrite Hrc.
        simpl in Hc. rewrite Hc. simpl. unfold load_res in Hl. simpl in Hl. rewrite Hc in Hl. simpl in Hl.
        simpl in Hd. rewrite Hd in Hl. simpl in Hl. mon Hl. rewrite E. simpl.
        rewrite accrue_id by done. simpl. f_equal. by rewrite Hr'.
      * rewrite lookup_insert_ne in Hb by done. rewrite Hcf. rewrite (load_res_ext _ _ _ (flush p ch ov)); [by apply W|done|].
        rewrite Hrd. by rewrite lookup_insert_ne.
    + intros b Hb. rewrite Ha'. destruct (decide (b = a)) as [->|Hne]; [rewrite lookup_insert; eauto|].
      rewrite lookup_insert_ne by done. by apply W.
  - unfold flush at 1. f_equal; [exact Hrd|]. by rewrite (emis_pos _ _ Hs).
Qed.

Lemma withrp_id p : withrp (ps_rdata p) (ps_pos p) p = p.
Proof. by destruct p. Qed.
Lemma withrp_withrp a b c d p : withrp a b (withrp c d p) = withrp a b p.
Proof. by destruct p. Qed.

(** loading a reserve for storage is an accrual of the flushed state *)
Lemma load_sim now p ch ov a r ch1 :
  cwf now p ch ov -> load_reserve now p ch a true = Ok (r, ch1) ->
  let ch2 := cache_reserve ch1 r in
  cwf now p ch2 ov /\ pmove now (flush p ch ov) (LAcc a) (flush p ch2 ov) /\
  ch_res ch2 !! a = Some r /\ a ∈ ch_store ch2 /\ r_asset r = a.
Proof.
  intros W H. apply load_reserve_sim with (ov := ov) in H as [Hl ->]; [|done].
  pose proof (load_res_fields _ _ _ _ _ Hl) as (cfg & d & Hc & Hd & Ha & _ & _ & _ & _ & _ & Hac).
  pose proof (accrue_last _ _ _ _ _ Hac) as Hlast. simpl.
  assert (ps_rdata (flush p (cache_reserve (add_store ch a) r) ov) = <[a := r_data r]> (ps_rdata (flush p ch ov))) as Hrd.
  { apply map_eq. intros b. rewrite flush_rdata. simpl. rewrite add_store_res, Ha.
    destruct (decide (b = a)) as [->|Hne].
    - rewrite decide_True by (apply elem_add_store; by left). by rewrite !lookup_insert.
    - rewrite !lookup_insert_ne by done. pose proof (flush_rdata p ch ov b) as Hf. simpl in Hf. rewrite Hf.
      destruct (decide (b ∈ ch_store ch)).
      + by rewrite decide_True by (apply elem_add_store; by right).
      + rewrite decide_False; [done|]. rewrite elem_add_store. tauto. }
  split; [|split; [|split; [|split]]].
  - constructor; simpl; [rewrite add_store_cfg; apply W|..].
    + intros b rb Hb. rewrite add_store_res, Ha in Hb. destruct (decide (b = a)) as [->|Hne].
      * rewrite lookup_insert in Hb. injection Hb as <-.
        unfold load_res. rewrite Hrd, lookup_insert. simpl in *. rewrite Hc. simpl.
        unfold load_res in Hl. simpl in Hl. rewrite Hc in Hl. simpl in Hl. rewrite Hd in Hl. simpl in Hl.
        mon Hl. rewrite E. simpl in *. rewrite accrue_id by done. done.
      * rewrite lookup_insert_ne in Hb by done. rewrite (load_res_ext _ _ _ (flush p ch ov)); [by apply W|done|].
        rewrite Hrd. by rewrite lookup_insert_ne.
    + intros b Hb. rewrite add_store_res, Ha. destruct (decide (b = a)) as [->|Hne]; [rewrite lookup_insert; eauto|].
      rewrite lookup_insert_ne by done. apply elem_add_store in Hb as [?|Hb]; [done|]. by apply W.
  - replace (flush p (cache_reserve (add_store ch a) r) ov) with (flush p ch ov <| ps_rdata := <[a := r_data r]> (ps_rdata (flush p ch ov)) |>).
    + eapply pm_acc; eauto.
    + rewrite <- Hrd. destruct p; done.
  - by rewrite add_store_res, Ha, lookup_insert.
  - simpl. apply elem_add_store. by left.
  - done.
Qed.

(** a position change through the cache *)
Definition pos_ok (p : PoolSt) : Prop :=
  forall u k i v, get_k k (get_pos p u) !! i = Some v -> 0 < v.
Lemma pos_ok_getz p u k i : pos_ok p -> 0 <= getz (get_k k (get_pos p u)) i.
Proof. intros H. unfold getz. destruct (_ !! i) eqn:E; simpl; [apply H in E|]; lia. Qed.

Lemma pos_sim now p ch ov k f u a pos r amt p1 pos1 r1 dl :
  cwf now p ch ov -> pos_ok (flush p ch ov) -> ov !! u = Some pos -> ch_res ch !! a = Some r -> a ∈ ch_store ch ->
  (is_add k f /\ 0 < amt /\ dl = amt) \/ (is_rem k f /\ dl = - amt) ->
  f now p u pos r amt = Ok (p1, pos1, r1) ->
  let ch' := cache_reserve ch r1 in let ov' := <[u := pos1]> ov in
  cwf now p1 ch' ov' /\ pmove now (flush p ch ov) (LPos k u a dl) (flush p1 ch' ov') /\
  ch_res ch' !! a = Some r1 /\ a ∈ ch_store ch'.
Proof.
  intros W Hpos Hov Hr Hst Hf H.
  assert (dl <> 0 /\ changed now k p u pos r dl p1 pos1 r1 /\ 0 <= getz (get_k k pos) (r_index r) + dl /\
    pos1 = set_k k (put (get_k k pos) (r_index r) (getz (get_k k pos) (r_index r) + dl)) pos) as (Hdl & Hch & Hnn & Hpos1).
  { destruct Hf as [(Hf & Ha & ->)|(Hf & ->)].
    - apply (add_changed k) in H as (Hz & Hch & Hp); [|done]. split; [done|]. split; [done|].
      pose proof (pos_ok_getz (flush p ch ov) u k (r_index r) Hpos) as Hg. rewrite flush_get_pos, Hov in Hg.
      split; [lia|]. rewrite Hp. unfold put. destruct (_ =? 0) eqn:E; [lia|done].
    - apply (rem_changed k) in H as (Hz & Hch & Hnn & Hp); [|done]. split; [lia|]. split; [done|].
      replace (getz (get_k k pos) (r_index r) + - amt) with (getz (get_k k pos) (r_index r) - amt) by lia. done. }
  destruct Hch as ((n & He) & Hb1 & Hb2 & Hr1).
  pose proof (p_emissions_emis _ _ _ _ _ _ _ _ _ _ He) as Hs.
  pose proof (cf_res _ _ _ _ W _ _ Hr) as Hl.
  pose proof (load_res_fields _ _ _ _ _ Hl) as (cfg & d & Hc & Hd & Ha & Hi & _ & _ & _ & Hsc & Hac).
  pose proof (accrue_last _ _ _ _ _ Hac) as Hlast.
  assert (ps_rdata (flush p ch ov) !! a = Some (r_data r)) as Hd'.
  { rewrite flush_rdata, decide_True, Hr by done. done. }
  assert (r_asset r1 = a) as Ha1 by (by rewrite Hr1).
  destruct (cache_store_flush now p p1 ch ov (<[u := pos1]> ov) a r r1 W Hs Hr Hst) as [W' Hfl].
  { rewrite Hr1. done. }
  { rewrite Hr1. destruct k; done. }
  simpl. split; [done|]. split; [|split; [by rewrite Ha1, lookup_insert|done]].
  rewrite Hfl.
  eapply (p_emissions_withrp (pend ch ∪ ps_rdata p) (ov ∪ ps_pos p)) in He. fold (flush p ch ov) in He.
  assert (get_pos (flush p ch ov) u = pos) as Hgp by (by rewrite flush_get_pos, Hov).
  rewrite Hi, Hsc in *. simpl in Hc.
  pose proof (pm_pos now (flush p ch ov) k u a dl cfg (r_data r) n (withrp (pend ch ∪ ps_rdata p) (ov ∪ ps_pos p) p1)) as Hm.
  rewrite Hgp in Hm. specialize (Hm Hc Hd' Hlast Hdl He ltac:(lia) Hb2).
  replace (withrp (<[a:=r_data r1]> (ps_rdata (flush p ch ov))) (<[u:=pos1]> ov ∪ ps_pos p) p1) with
    (withrp (pend ch ∪ ps_rdata p) (ov ∪ ps_pos p) p1 <| ps_rdata := <[a := set_sup_k k (sup_k k (r_data r) + dl) (r_data r)]> (ps_rdata (flush p ch ov)) |>
       <| ps_pos := <[u := set_k k (put (get_k k pos) (rc_index cfg) (getz (get_k k pos) (rc_index cfg) + dl)) pos]> (ps_pos (flush p ch ov)) |>); [done|].
  rewrite Hr1 at 1. rewrite <- Hpos1. simpl. rewrite insert_union_l. destruct p1; done.
Qed.
