(** * Concrete cases for C68 *)
From Verif Require Import Base Types Token Emitter Factory Backstop PoolReserve PoolUser PoolHealth
  PoolAuction PoolSubmit PoolEmis PoolAdmin World Facts XMove Spec PoolFrame PoolCfg PoolHF PoolAccrue PoolTrace PoolInv PropsPool1 PropsPool2 PropsPool3
  PropsPool4 PropsPool25 PropsPool27 Scenario ScenarioPool.

Definition same_map (m m' : gmap Z Z) : bool := bool_decide (m = m').
Definition same_pos (p q : Positions) : bool := same_map (po_liab p) (po_liab q) && same_map (po_coll p) (po_coll q) && same_map (po_sup p) (po_sup q).
Definition same_auct (x y : option Auction) : bool :=
  match x, y with Some a, Some b => same_map (au_bid a) (au_bid b) && same_map (au_lot a) (au_lot b) && (au_block a =? au_block b) | _, _ => false end.
Definition health (w : World) (pos : Positions) : Z * Z := (eff_coll (w_now w) (pool w P1) (w_ext w) pos, eff_liab (w_now w) (pool w P1) (w_ext w) pos).

(** alice's auction of 60 percent, filled after 99 ledgers: her health factor goes from 0.83 to 1.56 *)
Example ex_C68_restored :
  let w0 := run sc0 ops_year in let w1 := run sc0 ops_liq in let w := run sc0 ops_wait in
  let w' := run sc0 (ops_wait ++ [submit_op carol [(6, alice, 100)]]) in
  all_ok sc0 (ops_wait ++ [submit_op carol [(6, alice, 100)]]) = true /\
  forallb (fun r => 0 <=? price_of (pool w0 P1) (w_ext w0) r) (reserve_list w0 P1) = true /\
  same_pos (positions w0 P1 alice) (positions w P1 alice) = true /\ same_auct (auction w1 P1 0 alice) (auction w P1 0 alice) = true /\
  option_map (fun au => w_seq w - au_block au) (auction w P1 0 alice) = Some 99 /\
  health w0 (positions w0 P1 alice) = (75000000000, 90422228000) /\ health w0 (positions w' P1 alice) = (56589359812, 36168891200).
Proof. repeat split; by vm_compute. Qed.

(** the condition on the age is needed: filled after 319 ledgers, it goes down to 0.55, as the lot is still handed out as a whole, but 60 percent of the bid is forgiven *)
Definition ops_late : list Op := ops_liq ++ [submit_op carol [(2, AAA, 900000000000)]; OTick 1600 320].
Example ex_C68_late :
  let w0 := run sc0 ops_year in let w := run sc0 ops_late in
  let w' := run sc0 (ops_late ++ [submit_op carol [(6, alice, 100)]]) in
  all_ok sc0 (ops_late ++ [submit_op carol [(6, alice, 100)]]) = true /\
  same_pos (positions w0 P1 alice) (positions w P1 alice) = true /\
  option_map (fun au => w_seq w - au_block au) (auction w P1 0 alice) = Some 319 /\
  health w0 (positions w' P1 alice) = (37806787500, 68449626596).
Proof. repeat split; by vm_compute. Qed.

(** the penalty: a premium of 1.21875, 4959 paid for 4069 of debt; errors of 3 and 5 units of the oracle's last decimal *)
Example ex_C68_penalty :
  let w0 := run sc0 ops_year in
  (premium w0 P1 alice 7, coll_worth w0 P1 alice, lot_error w0 P1 alice, bid_error w0 P1 alice) = (12187500, 100000000000, 3, 5) /\
  option_map (fun au => (lot_value w0 P1 au, bid_value w0 P1 au)) (auction (run sc0 ops_liq) P1 0 alice) = Some (49590950000, 40690002600).
Proof. split; by vm_compute. Qed.
