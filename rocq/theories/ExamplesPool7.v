(** * Concrete cases for C65, and why its restriction is needed *)
From Verif Require Import Base Types Token Emitter Factory Backstop PoolReserve PoolUser PoolHealth
  PoolAuction PoolSubmit PoolEmis PoolAdmin World Facts XMove Spec PoolFrame PoolCfg PoolHF PoolAccrue PropsAdmin PoolEmisInv PropsBackstop5 PropsPool1 PropsPool2 PropsPool3
  PropsPool4 PropsPool5 PropsPool9 PropsPool10 PoolLive PropsPool13 PropsPool15 PropsPool16 PropsPool20 PropsPool22 Scenario ScenarioPool ExamplesPool ExamplesPool2 ExamplesPool3
  ExamplesPool5 ExamplesPool6.

Definition within_b (m : gmap Z Z) (g : Z -> Z) : bool := forallb (fun e => e.2 <=? g e.1) (map_to_list m).
Lemma within_dec m g : within_b m g = true -> forall r v, m !! r = Some v -> v <= g r.
Proof. unfold within_b. rewrite forallb_forall. intros H r v Hv. specialize (H (r, v)). cbn [fst snd] in H. apply Z.leb_le, H. by apply elem_of_list_In, elem_of_map_to_list. Qed.
Definition room_b (au : Auction) : bool := forallb (fun e => (0 <=? e.2) && (e.2 * 10000000 <=? i128_max)) (map_to_list (au_bid au) ++ map_to_list (au_lot au)).
Lemma room_dec au : room_b au = true -> room au.
Proof.
  unfold room_b, room. rewrite forallb_forall. intros H k v Hkv. specialize (H (k, v)). cbn [fst snd] in H.
  rewrite andb_true_iff, !Z.leb_le in H. apply H. rewrite <- elem_of_list_In, elem_of_app, !elem_of_map_to_list. done.
Qed.
Definition asset_b (w : World) (a u filler r : Addr) : bool :=
  accruable_b w a r && forallb (fun x => emis_fits_b (w_now w) (pool w a) x (index_of w a r * 2 + 1) && emis_fits_b (w_now w) (pool w a) x (index_of w a r * 2)) [u; filler] &&
  match reserve w a r with Some d => (rd_b_supply d <=? i128_max) && (rd_d_supply d <=? i128_max) | None => true end.
Definition fill_b (w : World) (a filler u n dec : Z) : bool :=
  match auction w a 0 u with
  | None => false
  | Some au =>
      let f := filled au n (w_seq w - au_block au) in let pos := positions w a filler in let pos' := taking w a f pos in
      (au_block au <=? w_seq w) && (1 <=? n) && (n <=? 100) && within_b (au_lot f) (collateral (account w a u)) && within_b (au_bid f) (owed (account w a u)) &&
      healthy_b w a dec pos' && (position_count pos' <=? pc_max_positions (ps_config (pool w a))) && all_valued_b w a dec pos' &&
      (0 <=? au_block au) && (w_seq w <=? u32_max) && room_b au &&
      forallb (fun e => asset_b w a u filler e.1) (map_to_list (au_lot f) ++ map_to_list (au_bid f))
  end.
Lemma fill_dec w a filler u n dec : reachable w -> forallb ok_signer [filler] = true -> filler <> a -> filler <> u -> fill_b w a filler u n dec = true ->
  succeeds w (OPool [filler] a (PSubmit filler filler filler [mkReq 6 u n])).
Proof.
  intros Hr Hok Hfa Hne H. unfold fill_b in H. destruct (auction w a 0 u) as [au|] eqn:Hau; [|done]. cbv zeta in H.
  repeat (apply andb_true_iff in H as [H ?]). rewrite ?Z.leb_le in *.
  eapply (C65_fill_possible w [filler] a filler filler u n au dec Hr ltac:(left) Hok Hfa Hne Hau); try done; try lia.
  - by apply within_dec.
  - by apply within_dec.
  - unfold healthy. by apply Z.leb_le.

  - by apply all_valued_dec.
  - by apply room_dec.
  - intros r v Hv. rewrite forallb_forall in *. match goal with H : forall e, In e (_ ++ _) -> _ |- _ => specialize (H (r, v)); cbn [fst] in H; rename H into HA end.
    rewrite <- elem_of_list_In, elem_of_app, !elem_of_map_to_list in HA. specialize (HA Hv). unfold asset_b in HA.
    apply andb_true_iff in HA as [HA HD]. apply andb_true_iff in HA as [HA HE]. split; [by apply accruable_dec|]. split.
    + intros x Hx. rewrite forallb_forall in HE. specialize (HE x). rewrite andb_true_iff in HE. destruct HE as [HE1 HE2]; [destruct Hx as [->| ->]; [by left|right; by left]|].
      split; by apply emis_fits_dec.
    + intros d Hd. rewrite Hd in HD. by apply andb_true_iff in HD as [HD1%Z.leb_le HD2%Z.leb_le].
Qed.

(** carol fills half of the auction on alice after 100 ledgers, or all of it; a late filler of the
    auction on the insolvent alice takes all of her collateral *)
Definition ops_crashliq : list Op := ops_crash ++ [OPool [] P1 (PNewLiq alice 100); submit_op carol [(2, AAA, 900000000000)]].
Definition ops_late : list Op := ops_crashliq ++ [OTick 3000 601].
Example ex_C65_fill : forall l n, (l, n) = (ops_wait, 50) \/ (l, n) = (ops_wait, 100) \/ (l, n) = (ops_late, 100) ->
  succeeds (run sc0 l) (OPool [carol] P1 (PSubmit carol carol carol [mkReq 6 alice n])).
Proof.
  intros l n Hl. assert (reachable (run sc0 l)) as Hr by apply sc_reachable.
  assert (fill_b (run sc0 l) P1 carol alice n 7 = true) as Hb by (destruct Hl as [[= -> ->]|[[= -> ->]|[= -> ->]]]; by vm_compute).
  generalize dependent (run sc0 l). intros w Hr Hb. by apply (fill_dec w P1 carol alice n 7).
Qed.

(** ** Why the user's positions matter *)
(** alice's debt is sold as a whole; she repays 1 unit of it before carol, who could have taken over
    everything, does so: no filler can fill the auction as a whole any more during its first 200
    ledgers, while 99% of it can be filled *)
Definition ops_early : list Op := ops_crashliq ++ [submit_op carol [(2, BBB, 90000000000)]; OTick 750 151].
Definition ops_dust : list Op := ops_early ++ [submit_op alice [(5, BBB, 2)]].
Definition need_b (w : World) (a u n : Z) : bool :=
  match auction w a 0 u with
  | None => false
  | Some au => let f := filled au n (w_seq w - au_block au) in negb (within_b (au_bid f) (owed (account w a u)))
  end.
Lemma not_within m g : within_b m g = false -> exists r v, m !! r = Some v /\ g r < v.
Proof.
  unfold within_b. intros H. assert (exists e, e ∈ map_to_list m /\ (e.2 <=? g e.1) = false) as ([r v] & He & Hl).
  { induction (map_to_list m) as [|e l IH]; [done|]. simpl in H. apply andb_false_iff in H as [H|H]; [exists e; split; [left|done]|].
    destruct (IH H) as (e' & He & Hl). exists e'. split; [by right|done]. }
  exists r, v. split; [by apply elem_of_map_to_list|]. by apply Z.leb_gt.
Qed.
Theorem C65_restriction_needed :
  let before := run sc0 ops_early in let after := run sc0 ops_dust in
  reachable before /\ after = step before (submit_op alice [(5, BBB, 2)]) /\
  ret before (submit_op carol [(6, alice, 100)]) <> None /\
  (forall sg filler spender to, ~ succeeds after (OPool sg P1 (PSubmit filler spender to [mkReq 6 alice 100]))) /\
  ret after (submit_op carol [(6, alice, 99)]) <> None.
Proof.
  cbv zeta. split; [apply sc_reachable|]. split. { apply run_snoc. }
  split; [by vm_compute|]. split; [|by vm_compute].
  assert (reachable (run sc0 ops_dust)) as Hr by apply sc_reachable.
  assert (need_b (run sc0 ops_dust) P1 alice 100 = true) as Hb by by vm_compute.
  generalize dependent (run sc0 ops_dust). intros w Hr Hb sg filler spender to (out & w' & E).
  destruct (C65_fill_needs _ _ _ _ _ _ _ _ _ _ Hr E) as (au & Hau & _ & _ & _ & Hn). unfold need_b in Hb. rewrite Hau in Hb. cbv zeta in Hb, Hn.
  change (100 mod 2 ^ 64) with 100 in Hn. apply negb_true_iff in Hb. apply not_within in Hb as (r & v & Hv & Hlt). specialize (Hn r v Hv). lia.
Qed.
