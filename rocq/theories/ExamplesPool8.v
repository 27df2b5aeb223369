(** * Concrete cases for C66, and why its restrictions are needed *)
From Verif Require Import Base Types Token Emitter Factory Backstop PoolReserve PoolUser PoolHealth
  PoolAuction PoolSubmit PoolEmis PoolAdmin World Facts XMove Spec PoolFrame PoolCfg PoolHF PoolAccrue PoolTrace PoolInv PoolReach PropsAdmin PoolEmisInv BackMoves PropsBackstop PropsBackstop5 PropsPool1 PropsPool2 PropsPool3
  PropsPool4 PropsPool5 PropsPool6 PropsPool9 PropsPool10 PoolLive PropsPool13 PropsPool15 PropsPool16 PropsPool20 PropsPool22 PropsPool23 Scenario ScenarioPool ExamplesPool ExamplesPool2 ExamplesPool3
  ExamplesPool5 ExamplesPool6 ExamplesPool7.

Definition valued_b (w : World) (a : Addr) : bool :=
  match bs_lpval (x_bs (w_ext w)) with
  | Some (vb, vu) => (0 <=? vb) && (0 <=? vu) && (backstop_tokens w a * vb <=? i128_max) && (backstop_tokens w a * vu <=? i128_max) && (pb_q4w (pool_bal w a) * 10000000 <=? i128_max)
  | None => false
  end.
Definition debt_b (w : World) (a filler r : Addr) : bool :=
  accruable_b w a r && emis_fits_b (w_now w) (pool w a) bs_addr (index_of w a r * 2) && emis_fits_b (w_now w) (pool w a) filler (index_of w a r * 2) &&
  match reserve w a r with Some d => rd_d_supply d <=? i128_max | None => true end.
Definition bfill_b (w : World) (a filler n dec : Z) : bool :=
  match auction w a 1 bs_addr with
  | None => false
  | Some au =>
      let f := filled au n (w_seq w - au_block au) in let pos := positions w a filler in let pos' := owing w a f pos in let lot := amount_at (au_lot f) (backstop_token w) in
      (ps_backstop (pool w a) =? bs_addr) && bs_init (x_bs (w_ext w)) && negb (bs_token (x_bs (w_ext w)) =? bs_blnd (x_bs (w_ext w))) &&
      (au_block au <=? w_seq w) && (1 <=? n) && (n <=? 100) && (0 <? lot) && (lot <=? backstop_tokens w a) && within_b (au_bid f) (owed (account w a bs_addr)) &&
      healthy_b w a dec pos' && (position_count pos' <=? pc_max_positions (ps_config (pool w a))) && all_valued_b w a dec pos' &&
      (0 <=? au_block au) && (w_seq w <=? u32_max) && room_b au && valued_b w a && (held w (backstop_token w) filler + lot <=? i128_max) &&
      forallb (fun r => (owed (account w a bs_addr) r =? 0) || debt_b w a filler r) (reserve_list w a)
  end.
Lemma bfill_dec w a filler n dec : reachable w -> forallb ok_signer [filler] = true -> filler <> a -> bfill_b w a filler n dec = true ->
  succeeds w (OPool [filler] a (PSubmit filler filler filler [mkReq 7 bs_addr n])).
Proof.
  intros Hr Hok Hfa H. unfold bfill_b in H. destruct (auction w a 1 bs_addr) as [au|] eqn:Hau; [|done]. cbv zeta in H.
  repeat (apply andb_true_iff in H as [H ?]). rewrite ?Z.leb_le, ?Z.ltb_lt, ?negb_true_iff, ?Z.eqb_eq, ?Z.eqb_neq in *.
  eapply (C66_fill_possible w [filler] a filler filler n au dec Hr ltac:(left) Hok Hfa); try done; try lia.
  - by apply within_dec.
  - unfold healthy. by apply Z.leb_le.
  - by apply all_valued_dec.
  - by apply room_dec.
  - match goal with H : valued_b _ _ = true |- _ => unfold valued_b in H; rename H into HV end. destruct (bs_lpval _) as [[vb vu]|] eqn:Hl; [|done].
    repeat (apply andb_true_iff in HV as [HV ?]). rewrite ?Z.leb_le in *. exists vb, vu. done.
  - intros r Ho. match goal with H : forallb _ (reserve_list _ _) = true |- _ => rename H into HA end. rewrite forallb_forall in HA.
    assert (r ∈ reserve_list w a) as Hin.
    { destruct (reachable_auct w a Hr 1 bs_addr au ltac:(lia) Hau) as [Hi _]. pose proof (reachable_good w a Hr Hi) as G.
      destruct (ps_rcfg (pool w a) !! r) as [cfg|] eqn:Hc; [by eapply (cw_list _ (gd_cfg _ G) r)|].
      exfalso. apply Ho. change (amount_at (po_liab (get_pos (pool w a) bs_addr)) (index_of w a r) = 0). unfold index_of, amount_at. rewrite Hc.
      destruct (po_liab (get_pos (pool w a) bs_addr) !! (-1)) as [v|] eqn:Hv; [|done]. pose proof (gd_idx _ G bs_addr KLiab (-1) v Hv). lia. }
    specialize (HA r). rewrite <- elem_of_list_In in HA. specialize (HA Hin). apply orb_true_iff in HA as [HA|HA]; [lia|]. unfold debt_b in HA.
    repeat (apply andb_true_iff in HA as [HA ?]). split; [by apply accruable_dec|]. split; [by apply emis_fits_dec|]. split; [by apply emis_fits_dec|].
    intros d Hd. match goal with H : match reserve w a r with _ => _ end = true |- _ => rewrite Hd in H; by apply Z.leb_le in H end.
Qed.

(** carol fills parts of the bad debt auction after 100 ledgers, and all of it after 600; with a backstop
    below 5% of the threshold, what is left is burned *)
Definition ops_bdlate : list Op := ops_bdwait ++ [OTick 2500 500].
Example ex_C66_fill : forall l n, (l, n) = (ops_bdwait, 30) \/ (l, n) = (ops_leave, 30) \/ (l, n) = (ops_bdlate, 100) ->
  succeeds (run sc0 l) (OPool [carol] P1 (PSubmit carol carol carol [mkReq 7 bs_addr n])).
Proof.
  intros l n Hl. assert (reachable (run sc0 l)) as Hr by apply sc_reachable.
  assert (bfill_b (run sc0 l) P1 carol n 7 = true) as Hb by (destruct Hl as [[= -> ->]|[[= -> ->]|[= -> ->]]]; by vm_compute).
  generalize dependent (run sc0 l). intros w Hr Hb. by apply (bfill_dec w P1 carol n 7).
Qed.

(** ** Why the backstop's tokens matter *)
(** alice, the only depositor, queued her shares in time and withdraws them after the auction was created:
    carol, who could have filled it, cannot, nor can anybody else, and a new auction is refused *)
Definition ops_away : list Op := ops_baddebt ++
  [OExt [alice] (BQueue alice P1 500000000000); OTick 1814400 100000;
   OOracle (orc0 (t0 + 86400 + 31536000 + 1814400 + 1900) 1000000 13000000); OPool [] P1 PNewBadDebt; OTick 500 100].
Definition ops_gone : list Op := ops_away ++ [OExt [alice] (BWithdraw alice P1 500000000000)].
Theorem C66_tokens_needed :
  let before := run sc0 ops_away in let after := run sc0 ops_gone in
  reachable before /\ after = step before (OExt [alice] (BWithdraw alice P1 500000000000)) /\ ret before (OExt [alice] (BWithdraw alice P1 500000000000)) <> None /\
  ret before (submit_op carol [(7, bs_addr, 30)]) <> None /\ 0 < owed (account after P1 bs_addr) BBB /\ auction after P1 1 bs_addr <> None /\
  (forall sg filler spender to u n, ~ succeeds after (OPool sg P1 (PSubmit filler spender to [mkReq 7 u n]))) /\
  ret after (OPool [] P1 PNewBadDebt) = None.
Proof.
  cbv zeta. split; [apply sc_reachable|]. split. { apply run_snoc. } split; [by vm_compute|]. split; [by vm_compute|]. split; [by vm_compute|]. split; [by vm_compute|].
  split; [|by vm_compute]. assert (reachable (run sc0 ops_gone)) as Hr by apply sc_reachable. assert (backstop_tokens (run sc0 ops_gone) P1 = 0) as Hb by by vm_compute.
  generalize dependent (run sc0 ops_gone). intros w Hr Hb sg filler spender to u n. by apply C66_no_tokens_no_fill.
Qed.

(** ** Why the debts matter *)
(** carol fills 30% and the rest of the debt is burned, but the rest of the auction stays: nobody can fill
    it before its 400th ledger, no new auction can be made, and after that carol takes the rest of the lot from
    the depositors for no debt *)
Definition ops_burnt : list Op := ops_leave ++ [submit_op carol [(7, bs_addr, 30)]].
Definition ops_burnt_late : list Op := ops_burnt ++ [OTick 1500 301].
Definition remains_b (w : World) (r : Addr) : bool :=
  match auction w P1 1 bs_addr with
  | Some au => (0 <? amount_at (au_bid au) r) && (w_seq w - au_block au <? 400) && (owed (account w P1 bs_addr) r =? 0)
  | None => false
  end.
Theorem C66_debt_needed :
  let after := run sc0 ops_burnt in let late := run sc0 ops_burnt_late in let last := run sc0 (ops_burnt_late ++ [submit_op carol [(7, bs_addr, 100)]]) in
  reachable after /\ owed (account after P1 bs_addr) BBB = 0 /\ auction after P1 1 bs_addr <> None /\
  (forall sg filler spender to n, ~ succeeds after (OPool sg P1 (PSubmit filler spender to [mkReq 7 bs_addr n]))) /\
  ret after (OPool [] P1 PNewBadDebt) = None /\
  ret late (submit_op carol [(7, bs_addr, 100)]) <> None /\
  backstop_tokens last P1 = backstop_tokens late P1 - 119659319 /\ held last LP carol = held late LP carol + 119659319 /\
  owed (account last P1 carol) BBB = owed (account late P1 carol) BBB.
Proof.
  cbv zeta. split; [apply sc_reachable|]. split; [by vm_compute|]. split; [by vm_compute|]. split.
  { assert (reachable (run sc0 ops_burnt)) as Hr by apply sc_reachable. assert (remains_b (run sc0 ops_burnt) BBB = true) as Hb by by vm_compute.
    generalize dependent (run sc0 ops_burnt). intros w Hr Hb sg filler spender to n. unfold remains_b in Hb. destruct (auction w P1 1 bs_addr) as [au|] eqn:Hau; [|done].
    apply andb_true_iff in Hb as [Hb H3]. apply andb_true_iff in Hb as [H1 H2]. apply (C66_no_debt_no_fill w sg P1 filler spender to bs_addr n au BBB); lia || done. }
  split; [by vm_compute|]. split; [by vm_compute|]. split; [by vm_compute|]. split; by vm_compute.
Qed.
