(** * Auctions: scaling, price curve and partial fills *)
From Verif Require Import Base Types Token Emitter Factory Backstop PoolReserve PoolUser PoolHealth
  PoolAuction PoolSubmit Facts.

(** [part up x y]: x times y/1e7, rounded up or down *)
Definition part (up : bool) (x y : Z) : Z := if up then cdiv (x * y) 10000000 else x * y / 10000000.
(** only positive amounts are kept *)
Definition keep (v : Z) : option Z := if 0 <? v then Some v else None.

Lemma part_ok (up : bool) x y v :
  (if up then fmul_ceil else fmul_floor) x y SCALAR_7 = Ok v -> v = part up x y.
Proof.
  destruct up; simpl; intros H; [apply fmul_ceil_ok in H as [-> _]|apply fmul_floor_ok in H as [-> _]]; vals; (done || lia).
Qed.

Lemma scale_map up pct md m f r :
  foldM (scale_one up pct md) (∅, ∅) (entries m) = Ok (f, r) ->
  (forall a, f !! a = m !! a ≫= fun v => keep (part up (part up v pct) md)) /\
  (forall a, r !! a = m !! a ≫= fun v => keep (v - part up v pct)).
Proof.
  assert (forall l (s s' : gmap Addr Z * gmap Addr Z), NoDup l.*1 -> foldM (scale_one up pct md) s l = Ok s' ->
    forall a, (a ∉ l.*1 -> s'.1 !! a = s.1 !! a /\ s'.2 !! a = s.2 !! a) /\
      (forall v, (a, v) ∈ l -> s.1 !! a = None -> s.2 !! a = None ->
         s'.1 !! a = keep (part up (part up v pct) md) /\ s'.2 !! a = keep (v - part up v pct))) as Hl.
  { induction l as [|[b w] l IH]; simpl; intros s s' Hn H a.
    - injection H as <-. split; [done|]. intros v Hv. by apply elem_of_nil in Hv.
    - apply NoDup_cons in Hn as [Hb Hn]. mon1 H. unfold scale_one in E. destruct s as [f0 r0]. mon E. simpl in *.
      apply part_ok in E0. apply part_ok in E2. apply i128_ok in E1 as [-> _]. subst base sc.
      specialize (IH _ _ Hn H a) as [IH1 IH2]. simpl in *. split.
      + intros Ha. apply not_elem_of_cons in Ha as [Hne Ha]. destruct (IH1 Ha) as [-> ->].
        split; [destruct (0 <? part up (part up w pct) md)|destruct (0 <? w - part up w pct)]; rewrite ?lookup_insert_ne by done; done.
      + intros v Hv Hf Hr. apply elem_of_cons in Hv as [[= -> ->]|Hv].
        * destruct (IH1 Hb) as [-> ->]. unfold keep.
          split; [destruct (0 <? part up (part up w pct) md)|destruct (0 <? w - part up w pct)]; rewrite ?lookup_insert; done.
        * assert (a <> b) by (intros ->; apply Hb; apply elem_of_list_fmap; by exists (b, v)).
          apply IH2; [done|destruct (0 <? part up (part up w pct) md)|destruct (0 <? w - part up w pct)]; rewrite ?lookup_insert_ne by done; done. }
  intros H. pose proof (Hl _ _ _ (entries_fst_NoDup m) H) as Hg. clear Hl. simpl in Hg.
  assert (forall a, f !! a = (m !! a ≫= fun v => keep (part up (part up v pct) md)) /\
                    r !! a = (m !! a ≫= fun v => keep (v - part up v pct))) as Hall.
  { intros a. destruct (Hg a) as [G1 G2]. destruct (m !! a) as [v|] eqn:Em; simpl.
    - apply G2; [by apply elem_of_entries|apply lookup_empty|apply lookup_empty].
    - destruct G1 as [-> ->]; [|by rewrite !lookup_empty].
      intros Ha. apply elem_of_list_fmap in Ha as ([b w] & -> & Ha). apply elem_of_entries in Ha. simpl in Em. congruence. }
  split; intros a; apply Hall.
Qed.

(** bid and lot shares at a given age, in 1e-7 units *)
Definition bid_share (dif : Z) : Z := if dif <=? 200 then 10000000 else Z.max 0 (10000000 - (dif - 200) * 50000).
Definition lot_share (dif : Z) : Z := Z.min 10000000 (dif * 50000).

Lemma modifiers_spec dif : 0 <= dif -> modifiers dif = (bid_share dif, lot_share dif).
Proof.
  intros H. unfold modifiers, bid_share, lot_share. vals.
  destruct (200 <? dif) eqn:E1; destruct (dif <=? 200) eqn:E2; try lia; [|f_equal; lia].
  destruct (dif <? 400) eqn:E3; f_equal; lia.
Qed.

(** the auction is scaled to [pct] percent at age [dif] *)
Lemma scale_auction_spec seq a pct tf rem :
  scale_auction seq a pct = Ok (tf, rem) -> 0 <= pct ->
  let dif := seq - au_block a in
  1 <= pct <= 100 /\ 0 <= dif <= u32_max /\ au_block tf = au_block a /\
  (forall k, au_bid tf !! k = au_bid a !! k ≫= fun v => keep (part true (part true v (pct * 100000)) (bid_share dif))) /\
  (forall k, au_lot tf !! k = au_lot a !! k ≫= fun v => keep (part false (part false v (pct * 100000)) (lot_share dif))) /\
  exists rb rl,
    (forall k, rb !! k = au_bid a !! k ≫= fun v => keep (v - part true v (pct * 100000))) /\
    (forall k, rl !! k = au_lot a !! k ≫= fun v => keep (v - part false v (pct * 100000))) /\
    rem = (if bool_decide (rl = ∅) && bool_decide (rb = ∅) then None else Some (mkAuction rb rl (au_block a))).
Proof.
  intros H Hp. unfold scale_auction in H. mon H. apply u32_ok in E as [-> Hd]. rewrite modifiers_spec in * by lia.
  match goal with E : (_, _) = (_, _) |- _ => injection E as <- <- end.
  apply i128_ok in E0 as [-> _]. apply scale_map in E1 as [H1 H2]. apply scale_map in E2 as [H3 H4].
  apply negb_true_iff, orb_false_iff in G as [G1 G2]. simpl.
  split; [lia|]. split; [lia|]. split; [done|]. split; [done|]. split; [done|]. eauto.
Qed.

