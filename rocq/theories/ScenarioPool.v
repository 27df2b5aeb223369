(** * The concrete deployment of Scenario.v with a lending pool in use: two reserves,
    a loan, a year of interest, a liquidation auction and a partial fill *)
From Verif Require Import Base Types Token Emitter Factory Backstop PoolReserve PoolUser PoolHealth
  PoolAuction PoolSubmit PoolEmis PoolAdmin World Facts Spec Scenario PoolCfg.

(** index, decimals, c_factor, l_factor, util, max_util, r_base, r_one, r_two, r_three, reactivity *)
Definition cfgA : ResConfig := mkResConfig 0 7 7500000 7500000 7500000 9500000 100000 500000 5000000 15000000 100.
Definition ops_pool : list Op := ops_emit ++
  [OPool [admin] P1 (PQueueRes AAA cfgA); OPool [admin] P1 (PQueueRes BBB cfgA); OPool [] P1 (PSetRes AAA); OPool [] P1 (PSetRes BBB);
   OPool [admin] P1 (PSetEmis [mkEmisMeta 0 1 4000000; mkEmisMeta 1 0 6000000]); OPool [] P1 PGulp;
   OPool [admin] P1 (PSetStatus 0); OOracle (orc0 (t0 + 86400) 10000000 10000000)].
(** user [u] submits (type, address, amount) requests for themselves *)
Definition submit_op (u : Addr) (l : list (Z * Z * Z)) : Op :=
  OPool [u] P1 (PSubmit u u u (map (fun e => mkReq e.1.1 e.1.2 e.2) l)).
Definition ops_loan : list Op := ops_pool ++
  [submit_op alice [(2, AAA, 100000000000)]; submit_op bob [(0, BBB, 100000000000)]; submit_op alice [(4, BBB, 50000000000)]].
(** a year later BBB is worth 1.3 *)
Definition ops_year : list Op := ops_loan ++ [OTick 31536000 5000000; OOracle (orc0 (t0 + 86400 + 31536000) 10000000 13000000)].
Definition ops_liq : list Op := ops_year ++ [OPool [] P1 (PNewLiq alice 60)].
Definition ops_wait : list Op := ops_liq ++ [submit_op carol [(2, AAA, 500000000000)]; OTick 500 100].
Definition ops_fill : list Op := ops_wait ++ [submit_op carol [(6, alice, 50)]].
Lemma ops_fill_ok : all_ok sc0 ops_fill = true. Proof. by vm_compute. Qed.

(** a crash of the collateral: alice's position is liquidated late (10% of her debt for all of
    her collateral) and the rest becomes the backstop's bad debt *)
Definition ops_crash : list Op := ops_loan ++ [OTick 31536000 5000000; OOracle (orc0 (t0 + 86400 + 31536000) 1000000 13000000)].
Definition ops_baddebt : list Op := ops_crash ++
  [OPool [] P1 (PNewLiq alice 100); submit_op carol [(2, AAA, 900000000000)]; OTick 1900 381;
   submit_op carol [(6, alice, 100)]; OPool [] P1 (PBadDebt alice)].
Definition ops_bdwait : list Op := ops_baddebt ++ [OPool [] P1 PNewBadDebt; OTick 500 100].
(** the same after almost all of the backstop deposit has been withdrawn *)
Definition ops_leave : list Op := ops_baddebt ++
  [OExt [alice] (BQueue alice P1 499000000000); OTick 1814400 100000; OExt [alice] (BWithdraw alice P1 499000000000);
   OOracle (orc0 (t0 + 86400 + 31536000 + 1814400 + 1900) 1000000 13000000); OPool [] P1 PNewBadDebt; OTick 500 100].
Lemma ops_bdwait_ok : all_ok sc0 (ops_bdwait ++ [submit_op carol [(7, bs_addr, 30)]]) = true. Proof. by vm_compute. Qed.
Lemma ops_leave_ok : all_ok sc0 (ops_leave ++ [submit_op carol [(7, bs_addr, 30)]]) = true. Proof. by vm_compute. Qed.
(** an interest auction on the take of a year *)
Definition ops_rich : list Op := ops_loan ++ [OTick 31536000 5000000; OOracle (orc0 (t0 + 86400 + 31536000) 70000000 70000000)].
Definition ops_int : list Op := ops_rich ++ [OPool [] P1 (PNewInterest [BBB]); OTick 500 101].
Definition ops_intfill : list Op := ops_int ++ [submit_op carol [(8, bs_addr, 60)]].
Lemma ops_intfill_ok : all_ok sc0 ops_intfill = true. Proof. by vm_compute. Qed.

(** the stored state of a reserve and of a user, as lists *)
Definition res_of (w : World) (r : Addr) : option ResData := ps_rdata (pool w P1) !! r.
Definition pos_of (w : World) (u : Addr) : list (Z * Z) * list (Z * Z) * list (Z * Z) :=
  let p := get_pos (pool w P1) u in (map_to_list (po_liab p), map_to_list (po_coll p), map_to_list (po_sup p)).
Definition auction_of (w : World) (t : Z) (u : Addr) : option (list (Z * Z) * list (Z * Z) * Z) :=
  match ps_auct (pool w P1) !! (t, u) with
  | Some au => Some (map_to_list (au_bid au), map_to_list (au_lot au), au_block au) | None => None end.
