(** * Concrete cases for C55 and C56 *)
From Verif Require Import Base Types Token Emitter Factory Backstop PoolReserve PoolUser PoolHealth
  PoolAuction PoolSubmit PoolEmis PoolAdmin World Facts XMove Spec PoolFrame PoolCfg PoolHF PoolAccrue PropsAdmin PoolEmisInv PropsBackstop5 PropsPool1 PropsPool2 PropsPool3
  PropsPool4 PropsPool5 PropsPool9 PropsPool10 PoolLive PropsPool13 PropsPool15 PropsPool16 Scenario ScenarioPool ExamplesPool ExamplesPool2.

(** ** C55 *)
(** a year into the loan, the pool frozen by its admin: bob still withdraws part of his supply
    and alice still repays part of her debt, more than all of it, and carol supplies once
    the pool is active again *)
Definition ops_frozen : list Op := ops_year ++ [OPool [admin] P1 (PSetStatus 4)].
Definition cfgB : ResConfig := cfgA <| rc_index := 1 |>.
Definition dataB : ResData := Eval vm_compute in default (mkResData 0 0 0 0 0 0 0) (res_of (run sc0 ops_frozen) BBB).

Definition withdraw_b (w : World) (a u to r n : Z) (cfg : ResConfig) (d : ResData) : bool :=
  let rate := b_rate_now w a r in
  let mine := supplied (account w a u) r in
  let pay := if mine <? up n rate then mine * rate / 1000000000 else n in
  (0 <? n) && (0 <? mine) && (pay <=? held w r a) && accruable_b w a r && emis_fits_b (w_now w) (pool w a) u (rc_index cfg * 2 + 1) &&
  (n * 1000000000 <=? i128_max) && (mine * rate <=? i128_max) && (rd_b_supply d <=? i128_max) && (held w r to + pay <=? i128_max).
Example ex_C55_withdraw : forall n, n = 1000000000 \/ n = 30000000000 -> status (run sc0 ops_frozen) P1 = 4 /\
  succeeds (run sc0 ops_frozen) (OPool [bob] P1 (PSubmit bob bob dave [mkReq 1 BBB n])).
Proof.
  intros n Hn. split; [by vm_compute|].
  assert (reachable (run sc0 ops_frozen)) as Hr by apply sc_reachable.
  assert (ps_rcfg (pool (run sc0 ops_frozen) P1) !! BBB = Some cfgB) as Hc by by vm_compute.
  assert (reserve (run sc0 ops_frozen) P1 BBB = Some dataB) as Hd by by vm_compute.
  assert (withdraw_b (run sc0 ops_frozen) P1 bob dave BBB n cfgB dataB = true) as Hb by (destruct Hn as [->| ->]; by vm_compute).
  generalize dependent (run sc0 ops_frozen). intros w Hr Hc Hd Hb. unfold withdraw_b in Hb. cbv zeta in Hb.
  repeat (apply andb_true_iff in Hb as [Hb ?]). rewrite ?Z.leb_le, ?Z.ltb_lt in *.
  eapply (C55_withdraw_possible w [bob] P1 bob dave 1 BBB n cfgB dataB); try done; try (by left); try (by apply accruable_dec); by apply emis_fits_dec.
Qed.

Definition repay_b (w : World) (a u to r n : Z) (cfg : ResConfig) (d : ResData) : bool :=
  let rate := d_rate_now w a r in
  let debt := owed (account w a u) r in
  let refund := if debt <? down n rate then n - cdiv (debt * rate) 1000000000 else 0 in
  (0 <? debt) && (rate <=? n * 1000000000) && (n <=? held w r u) && accruable_b w a r && emis_fits_b (w_now w) (pool w a) u (rc_index cfg * 2) &&
  (n * 1000000000 <=? i128_max) && (debt * rate <=? i128_max) && (rd_d_supply d <=? i128_max) && (held w r a + n <=? i128_max) && (held w r to + refund <=? i128_max).
Example ex_C55_repay : forall n, n = 1000000000 \/ n = 900000000000 ->
  succeeds (run sc0 ops_frozen) (OPool [alice] P1 (PSubmit alice alice alice [mkReq 5 BBB n])).
Proof.
  intros n Hn.
  assert (reachable (run sc0 ops_frozen)) as Hr by apply sc_reachable.
  assert (ps_rcfg (pool (run sc0 ops_frozen) P1) !! BBB = Some cfgB) as Hc by by vm_compute.
  assert (reserve (run sc0 ops_frozen) P1 BBB = Some dataB) as Hd by by vm_compute.
  assert (repay_b (run sc0 ops_frozen) P1 alice alice BBB n cfgB dataB = true) as Hb by (destruct Hn as [->| ->]; by vm_compute).
  generalize dependent (run sc0 ops_frozen). intros w Hr Hc Hd Hb. unfold repay_b in Hb. cbv zeta in Hb.
  repeat (apply andb_true_iff in Hb as [Hb ?]). rewrite ?Z.leb_le, ?Z.ltb_lt in *.
  eapply (C55_repay_possible w [alice] P1 alice alice BBB n cfgB dataB); try done; try (by left); try (by apply accruable_dec); by apply emis_fits_dec.
Qed.

Definition supply_b (w : World) (a u r n : Z) (cfg : ResConfig) (d : ResData) : bool :=
  let rate := b_rate_now w a r in
  (status w a <=? 3) && (rate <=? n * 1000000000) && (n <=? held w r u) && accruable_b w a r && emis_fits_b (w_now w) (pool w a) u (rc_index cfg * 2 + 1) &&
  (n * 1000000000 <=? i128_max) && (rd_b_supply d + down n rate <=? i128_max) && (held w r a + n <=? i128_max).
Example ex_C55_supply : succeeds (run sc0 ops_year) (OPool [carol] P1 (PSubmit carol carol carol [mkReq 0 BBB 123456789])).
Proof.
  assert (reachable (run sc0 ops_year)) as Hr by apply sc_reachable.
  assert (ps_rcfg (pool (run sc0 ops_year) P1) !! BBB = Some cfgB) as Hc by by vm_compute.
  assert (reserve (run sc0 ops_year) P1 BBB = Some dataB) as Hd by by vm_compute.
  assert (supply_b (run sc0 ops_year) P1 carol BBB 123456789 cfgB dataB = true) as Hb by by vm_compute.
  generalize dependent (run sc0 ops_year). intros w Hr Hc Hd Hb. unfold supply_b in Hb. cbv zeta in Hb.
  repeat (apply andb_true_iff in Hb as [Hb ?]). rewrite ?Z.leb_le, ?Z.ltb_lt in *.
  eapply (C55_supply_possible w [carol] P1 carol carol BBB _ cfgB dataB); try done; try (by left); try (by apply accruable_dec); by apply emis_fits_dec.
Qed.

(** ** C56 *)
Definition sized_b (w : World) (d : ResData) (cfg : ResConfig) : bool :=
  (rc_r_base cfg + rc_r_one cfg + rc_r_two cfg <=? u32_max) && (debt d <=? 2 * (claims9 d / 1000000000)) && (w_now w <=? rd_last_time d + 31536000) &&
  (rd_d_rate d <=? 10 ^ 24) && (Z.abs (rd_credit d) <=? 10 ^ 37) && (rd_b_supply d * rd_b_rate d + 15000 * (rd_d_supply d * rd_d_rate d) <=? i128_max).
Example ex_C56_computable : accruable (run sc0 ops_year) P1 BBB.
Proof.
  assert (reachable (run sc0 ops_year)) as Hr by apply sc_reachable.
  assert (ps_rcfg (pool (run sc0 ops_year) P1) !! BBB = Some cfgB) as Hc by by vm_compute.
  assert (reserve (run sc0 ops_year) P1 BBB = Some dataB) as Hd by by vm_compute.
  assert (sized_b (run sc0 ops_year) dataB cfgB = true) as Hb by by vm_compute.
  generalize dependent (run sc0 ops_year). intros w Hr Hc Hd Hb. unfold sized_b in Hb.
  repeat (apply andb_true_iff in Hb as [Hb ?]). rewrite ?Z.leb_le in *.
  by apply (C56_interest_computable w P1 BBB cfgB dataB).
Qed.

(** a valid configuration whose rate parameters add up to more than 2^32 - 1; 97% of the supply is
    borrowed, and a second later the reserve is locked *)
Definition cfgL : ResConfig := mkResConfig 1 7 7500000 7500000 7500000 9900000 100000 2147483648 2147483648 2147483648 100.
Definition ops_lock : list Op := ops_emit ++
  [OPool [admin] P1 (PQueueRes AAA cfgA); OPool [admin] P1 (PQueueRes BBB cfgL); OPool [] P1 (PSetRes AAA); OPool [] P1 (PSetRes BBB);
   OPool [admin] P1 (PSetStatus 0); OOracle (orc0 (t0 + 86400) 10000000 10000000);
   submit_op alice [(2, AAA, 300000000000)]; submit_op bob [(0, BBB, 100000000000)]; submit_op alice [(4, BBB, 97000000000)]].
Definition dataL : ResData := Eval vm_compute in default (mkResData 0 0 0 0 0 0 0) (res_of (run sc0 ops_lock) BBB).
Definition lock_b (w : World) (d : ResData) (cfg : ResConfig) : bool :=
  (u32_max <? rc_r_base cfg + rc_r_one cfg + rc_r_two cfg) && (0 <? rd_b_supply d) && (95 * (claims9 d / 1000000000) <? 100 * debt d) && (rd_last_time d <? w_now w).
Theorem C56_restriction_needed : exists w a r supplier,
  reachable w /\ 0 < supplied (account w a supplier) r /\ 0 < held w r a /\
  forall l sg from spender to qs q, q ∈ qs -> plain q -> rq_addr q = r -> ~ succeeds (run w l) (OPool sg a (PSubmit from spender to qs)).
Proof.
  exists (run sc0 (ops_lock ++ [OTick 1 0])), P1, BBB, bob. split; [apply sc_reachable|]. split; [by vm_compute|]. split; [by vm_compute|].
  set (ops := ops_lock ++ [OTick 1 0]).
  assert (reachable (run sc0 ops)) as Hr by apply sc_reachable.
  assert (ps_rcfg (pool (run sc0 ops) P1) !! BBB = Some cfgL) as Hc by by vm_compute.
  assert (reserve (run sc0 ops) P1 BBB = Some dataL) as Hd by by vm_compute.
  assert (lock_b (run sc0 ops) dataL cfgL = true) as Hb by by vm_compute.
  generalize dependent (run sc0 ops). intros w Hr Hc Hd Hb. unfold lock_b in Hb.
  repeat (apply andb_true_iff in Hb as [Hb ?]). rewrite ?Z.ltb_lt in *. intros l.
  by apply (C56_overflow_locks w P1 BBB cfgL dataL l).
Qed.
