(** * Concrete cases for C96 *)
From Verif Require Import Base Types Token Emitter Factory Backstop PoolReserve PoolUser PoolHealth
  PoolAuction PoolSubmit PoolEmis PoolAdmin World Facts XMove Spec PoolFrame PoolCfg PropsPool1 PropsPool43
  Scenario ScenarioPool ExamplesPool20.

(** the condition of [C96_starved], computed *)
Fixpoint all_small (w : World) (l : list Op) : bool :=
  match l with
  | [] => true
  | o :: l' => match reserve w P1 BBB, reserve (step w o) P1 BBB with
               | Some d1, Some d2 => 1000000000 * suppliers_part (pc_bstop_rate (ps_config (pool w P1))) d1 d2 <? rd_b_supply d1
               | _, _ => false
               end && all_small (step w o) l'
  end.
Lemma all_small_sound l : forall w, all_small w l = true ->
  forall l1 o l2 d1 d2, l = l1 ++ o :: l2 -> reserve (run w l1) P1 BBB = Some d1 -> reserve (run w (l1 ++ [o])) P1 BBB = Some d2 ->
  1000000000 * suppliers_part (pc_bstop_rate (ps_config (pool (run w l1) P1))) d1 d2 < rd_b_supply d1.
Proof.
  induction l as [|o1 l IH]; intros w H l1 o l2 d1 d2 E H1 H2; [by destruct l1|]. cbn [all_small] in H. apply andb_true_iff in H as [Ha Hb].
  destruct l1 as [|o2 l1]; injection E as -> ->.
  - cbn [run app] in H1, H2 |- *. rewrite H1, H2 in Ha. lia.
  - cbn [run app] in H1, H2 |- *. by eapply IH.
Qed.

(** Finding: forty ledgers of five seconds, with the interest on BBB (0.44 percent a year) brought up
    to date in each of them by bob's supplies of dust.  All hypotheses are met: the suppliers get
    nothing, while the loans grow by 80 units of the ninth decimal. *)
Definition ledgers (n : nat) : list Op := concat (repeat [OTick 5 1; touch] n).
Example ex_C96_small : all_small after_year (ledgers 40) = true. Proof. by vm_compute. Qed.
Example ex_C96_starved : exists d d', reserve after_year P1 BBB = Some d /\ reserve (run after_year (ledgers 40)) P1 BBB = Some d' /\ rd_b_rate d' = rd_b_rate d.
Proof.
  pose proof ex_C96_small as Hs. assert (reachable after_year) as Hr by exact (sc_reachable _).
  assert (is_some (reserve after_year P1 BBB) = true) as Hd by by vm_compute. generalize dependent after_year. intros w Hs Hr Hd.
  apply is_some_spec in Hd as [d Hd]. destruct (C96_starved (ledgers 40) w P1 BBB d Hr Hd (all_small_sound _ _ Hs)) as (d' & Hd' & E). by exists d, d'.
Qed.
(** with a single update after the same time the suppliers get 12 units and the loans grow by 31 *)
Definition b_rate_of (w : World) : Z := match reserve w P1 BBB with Some d => rd_b_rate d | None => 0 end.
Example ex_C96_finding :
  let w1 := run after_year [OTick 200 40; touch] in let w2 := run after_year (ledgers 40) in
  (rate_of w1 - rate_of after_year, b_rate_of w1 - b_rate_of after_year) = (31, 12) /\
  (rate_of w2 - rate_of after_year, b_rate_of w2 - b_rate_of after_year) = (80, 0).
Proof. split; by vm_compute. Qed.
