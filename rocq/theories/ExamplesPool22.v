(** * Concrete cases for C94 *)
From Coq Require Import QArith Lqa.
From Verif Require Import Base Types Token Emitter Factory Backstop PoolReserve PoolUser PoolHealth
  PoolAuction PoolSubmit PoolEmis PoolAdmin World Facts XMove Spec PoolFrame PoolCfg PoolHF PoolAccrue PropsPool1 PropsPool2 PropsPool3 PropsPool4 PropsPool5 PropsPool19 PropsPool30 PropsPool36 PropsPool38 PropsPool39 PropsPool41
  Scenario ScenarioPool ExamplesPool20.
Local Open Scope Z_scope.

(** alice's collateral covers her debt with 12.5 percent to spare.  A year goes by at unchanged
    prices; bob trades in between and somebody tries to liquidate her. *)
Definition a_year : list Op :=
  [OTick 15768000 2500000; touch; OOracle (orc0 (t0 + 86400 + 15768000) 10000000 10000000); OPool [] P1 (PNewLiq alice 20);
   OTick 15768000 2500000; OOracle (orc0 (t0 + 86400 + 31536000) 10000000 10000000)].
(** at most 5 percent a year, so that a dToken of 1 BBB will be worth at most 1.06 BBB *)
Definition five (_ : Addr) : Q := 5 # 100.
Definition six (_ : Addr) : Z := 1060000000.

Definition loaned : World := run sc0 ops_loan.
Lemma a_year_facts : ps_init (pool loaned P1) = true /\ (alice =? ps_backstop (pool loaned P1)) = false /\
  (match auction loaned P1 0 alice with None => true | Some _ => false end) = true /\
  forallb (fun o => negb (existsb (Z.eqb alice) (signers o))) a_year = true /\
  (reserve_list loaned P1, [liab_of loaned P1 alice 0; coll_of loaned P1 alice 1], map (quote loaned P1 (x_orc (w_ext loaned))) [AAA; BBB]) = ([AAA; BBB], [0; 0], [10000000; 10000000]) /\
  map (quote loaned P1 (orc0 (t0 + 86400 + 15768000) 10000000 10000000)) [AAA; BBB] = [10000000; 10000000] /\
  map (quote loaned P1 (orc0 (t0 + 86400 + 31536000) 10000000 10000000)) [AAA; BBB] = [10000000; 10000000] /\
  every (fun v => Qle_bool (loan_rate v P1 BBB + rate_rounding v P1 BBB) (5 # 100)) loaned a_year = true /\
  (let cap := interest_cap loaned (run loaned a_year) P1 BBB (5 # 100) (updates loaned P1 BBB a_year + 1) in
   negb (Qle_bool 1 cap) && match reserve loaned P1 BBB with Some d => Qle_bool (inject_Z (rd_d_rate d)) (inject_Z 1060000000 * (1 - cap)) | None => false end) = true /\
  debt_at loaned P1 alice six <? coll_stored loaned P1 alice = true.
Proof. by vm_compute. Qed.

(** all hypotheses of [C94_time_margin] hold, and so nobody can liquidate alice after the year *)
Example ex_C94_safe : positions (run loaned a_year) P1 alice = positions loaned P1 alice /\
  forall sg pct, ~ succeeds (run loaned a_year) (OPool sg P1 (PNewLiq alice pct)).
Proof.
  destruct a_year_facts as (F1 & F2 & F3 & F4 & F5 & F6 & F7 & F8 & F9 & F10).
  assert (reachable loaned) as Hr by exact (sc_reachable _).
  generalize dependent loaned. intros w F1 F2 F3 F5 F6 F7 F8 F9 F10 Hr. injection F5 as E1 E2 E3 E4 E5. injection F6 as E6 E7. injection F7 as E8 E9.
  destruct (C94_time_margin w a_year P1 alice six five Hr F1) as (H1 & _ & _ & _ & H2); [by apply Z.eqb_neq| | | | | | | |done].
  - destruct (auction w P1 0 alice); done.
  - intros o Ho Hin. rewrite forallb_forall in F4. apply elem_of_list_In in Ho. specialize (F4 o Ho). apply negb_true_iff in F4.
    assert (existsb (Z.eqb alice) (signers o) = true); [|congruence]. apply existsb_exists. exists alice. split; [by apply elem_of_list_In|by rewrite Z.eqb_refl].
  - intros sg r Hin. unfold a_year, touch in Hin. repeat (apply elem_of_cons in Hin as [Hin|Hin]; [discriminate Hin|]). by apply elem_of_nil in Hin.
  - intros i r Hi. rewrite E1 in Hi. destruct i as [|[|i]]; [| |done]; injection Hi as <-; lia.
  - intros orc Hin i r Hi. rewrite E1 in Hi.
    assert (orc = orc0 (t0 + 86400 + 15768000) 10000000 10000000 \/ orc = orc0 (t0 + 86400 + 31536000) 10000000 10000000) as Ho.
    { unfold a_year, touch in Hin. repeat (apply elem_of_cons in Hin as [Hin|Hin]; [first [discriminate Hin | injection Hin as ->; by left | injection Hin as ->; by right]|]). by apply elem_of_nil in Hin. }
    destruct i as [|[|i]]; [| |done]; injection Hi as <-; destruct Ho as [-> | ->]; lia.
  - intros i r d Hi Hd Hne. rewrite E1 in Hi. destruct i as [|[|i]]; [by destruct Hne| |done]. injection Hi as <-.
    split; [by apply Qle_bool_iff|]. split; [refine (every_throughout _ _ _ _ _ F8); intros v Hv; by apply Qle_bool_iff|]. cbv zeta.
    apply andb_true_iff in F9 as [G1 G2]. rewrite Hd in G2. apply Qle_bool_iff in G2. split; [|exact G2].
    apply negb_true_iff in G1. apply Qnot_le_lt. intros Hx. apply Qle_bool_iff in Hx. unfold five in Hx. congruence.
  - by apply Z.ltb_lt.
Qed.

(** the attempt within the year fails, everything else succeeds; after the
    year her weighted debt is 6826 and not more than the 7066 of the bound, of a coverage of 7500 *)
Example ex_C94_outcome :
  map (fun o => match ret (run loaned (take (fst o) a_year)) (snd o) with Some _ => true | None => false end) (combine (seq 0 6) a_year) = [true; true; true; false; true; true] /\
  [weighted_debt loaned P1 alice; weighted_debt (run loaned a_year) P1 alice; debt_at loaned P1 alice six; coll_stored loaned P1 alice] = [66666666667; 68260150667; 70666666667; 75000000000].
Proof. split; by vm_compute. Qed.
