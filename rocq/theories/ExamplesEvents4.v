(** * Concrete cases for C90 *)
From Verif Require Import Base Types Token Emitter Factory Backstop PoolReserve PoolUser PoolHealth
  PoolAuction PoolSubmit PoolEmis PoolAdmin World Facts Spec PoolCfg Events PropsPool1 PropsPool3 PropsPool4 PropsBackstop PropsEvents1 PropsEvents2 PropsEmitter PropsAdmin PropsEvents6
  Scenario ScenarioPool PropsPool10 ExamplesAdmin.

(** right after the initialization of the emitter, the factory and the backstop *)
Definition ops_init : list Op := take 3 ops_deploy.
Definition r0 : Roster := mkRoster (fun _ => false) [] bs_addr LP None (fun _ => false) (at_key (fun _ => None) bs_addr (Some t0)).
Example ex_C90_right : right r0 (run sc0 ops_init).
Proof.
  assert (let w := run sc0 ops_init in (elements (fa_deployed (x_fac (w_ext w))), bs_rz (x_bs (w_ext w)), em_backstop (emitter w), em_token (emitter w), em_swap (emitter w), elements (em_dropped (emitter w)), map_to_list (em_last (emitter w))) = ([], [], bs_addr, LP, None, [], [(bs_addr, t0)])) as H by (by vm_compute).
  cbv zeta in H. generalize dependent (run sc0 ops_init). intros w H. injection H as H1 H2 H3 H4 H5 H6 H7.
  apply elements_empty_inv in H1, H6. unfold right. rewrite H2, H3, H4, H5. apply leibniz_equiv in H1, H6. rewrite H1, H6. split; [intros p; by rewrite bool_decide_eq_false_2|]. do 4 (split; [done|]). split; [intros p; by rewrite bool_decide_eq_false_2|].
  assert (em_last (emitter w) = {[ bs_addr := t0 ]}) as ->.
  { apply map_to_list_inj. by rewrite H7, map_to_list_singleton. }
  intros b. unfold at_key. cbn [ro_last r0]. unfold at_key. destruct (Z.eqb_spec b bs_addr) as [->|Hn]; [by rewrite lookup_singleton|by rewrite lookup_singleton_ne by congruence].
Qed.
Example ex_C90_init : em_init (emitter (run sc0 ops_init)) = true. Proof. by vm_compute. Qed.
Definition rolled (l : list Op) : Roster := fold_left enter (dated_log (run sc0 ops_init) l) r0.
(** what the events say while a swap is queued and after it is done, 31 days later *)
Definition ops_roll : list Op := drop 3 ops_swap.
Definition ops_rolled : list Op := ops_roll ++ [OTick 2678400 500000; OExt [] ESwap].
Example ex_C90_queued : let r := rolled ops_roll in
  (ro_pools r P1, ro_pools r P2, ro_pools r BIG, ro_zone r, ro_backstop r, ro_token r, ro_swap r, ro_last r bs_addr, ro_last r BIG) =
  (true, true, false, [P2; P1], bs_addr, LP, Some (mkSwap BIG LP (t0 + 86400 + 2678400)), Some (t0 + 86400), None).
Proof. by vm_compute. Qed.
Example ex_C90_swapped : let r := rolled ops_rolled in
  (ro_zone r, ro_backstop r, ro_token r, ro_swap r, ro_last r bs_addr, ro_last r BIG) =
  ([P2; P1], BIG, LP, None, Some (t0 + 86400 + 2678400), Some (t0 + 86400 + 2678400)) /\ all_ok (run sc0 ops_init) ops_rolled = true.
Proof. by vm_compute. Qed.
(** a full zone swaps a pool *)
Definition zone_op : Op := OExt [] (BAddReward (dp 11) (dp 4)).
Example ex_C90_full : let r := rolled (drop 3 (ops_zone 90000000006 ++ [zone_op])) in
  ro_zone r = map dp [10; 9; 8; 7; 6; 5; 11; 3; 2; 1] /\ ro_zone r = bs_rz (x_bs (w_ext (run sc0 (ops_zone 90000000006 ++ [zone_op])))).
Proof. by vm_compute. Qed.
(** Finding: the event [rw_zone] names a pool to remove also when nothing is removed, and in two states with the same reward zone the same event
    can mean that a pool was replaced or that it stays: the reader needs the time of the ledger and the rule of the zone's length. *)
Theorem C90_zone_event_ambiguous : exists w1 w2 o, reachable w1 /\ reachable w2 /\ bs_rz (x_bs (w_ext w1)) = bs_rz (x_bs (w_ext w2)) /\
  events w1 o = [VBZone (dp 11) (dp 4)] /\ events w2 o = [VBZone (dp 11) (dp 4)] /\
  bs_rz (x_bs (w_ext (step w1 o))) = map dp [10; 9; 8; 7; 6; 5; 11; 3; 2; 1] /\
  bs_rz (x_bs (w_ext (step w2 o))) = map dp [11; 10; 9; 8; 7; 6; 5; 4; 3; 2; 1].
Proof.
  exists (run sc0 (ops_zone 90000000006)), (run sc0 (ops_zone 90000000006 ++ [OTick 8388608 1000000])), zone_op.
  split; [exact (sc_reachable _)|]. split; [exact (sc_reachable _)|]. by vm_compute.
Qed.
