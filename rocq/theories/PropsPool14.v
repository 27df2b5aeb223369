(** * C17 in terms of executions: every fill pays and charges exactly what the price
    curve says for the age of the auction *)
From Verif Require Import Base Types Token Emitter Factory Backstop PoolReserve PoolUser PoolHealth
  PoolAuction PoolSubmit PoolEmis PoolAdmin World Facts XMove Spec PoolFrame PoolCfg PoolAccrue PoolTrace PoolInv AuctionFacts
  PoolSim PoolReq PoolHF PoolOps PoolLiq PoolReach PoolTx FrameFacts PropsPool1 PropsPool2 PropsPool3 PropsPool4 PropsPool6 PropsPool7 PropsPool8.

(** [floor (floor (v * pct%) * L)] and [ceil (ceil (v * pct%) * B)], where [L] and [B] are
    the lot and bid shares at the auction's age.  (Amounts of a stored auction are not
    negative unless an oracle reports negative prices; then nothing moves.) *)
Definition gets (v pct age : Z) : Z := Z.max 0 (v * pct / 100 * lot_share age / 10000000).
Definition pays (v pct age : Z) : Z := Z.max 0 (cdiv (cdiv (v * pct) 100 * bid_share age) 10000000).

Lemma positive_max v : default 0 (positive v) = Z.max 0 v.
Proof. unfold positive. destruct (Z.ltb_spec 0 v); simpl; lia. Qed.
Lemma cdiv_0 n : cdiv 0 n = 0. Proof. done. Qed.
Lemma filled_lot au pct age r : amount_at (au_lot (filled au pct age)) r = gets (amount_at (au_lot au) r) pct age.
Proof.
  unfold filled. cbn [au_lot]. rewrite amount_omap. unfold amount_at. destruct (au_lot au !! r) as [v|]; cbn [mbind option_bind].
  - by rewrite positive_max.
  - unfold gets. simpl. by rewrite Z.div_0_l by lia.
Qed.
Lemma filled_bid au pct age r : amount_at (au_bid (filled au pct age)) r = pays (amount_at (au_bid au) r) pct age.
Proof.
  unfold filled. cbn [au_bid]. rewrite amount_omap. unfold amount_at. destruct (au_bid au !! r) as [v|]; cbn [mbind option_bind].
  - by rewrite positive_max.
  - unfold pays. simpl. done.
Qed.
Lemma fill_facts w sg a from spender to t u n out w' : reachable w -> 0 <= t <= 2 ->
  exec w (OPool sg a (PSubmit from spender to [mkReq (6 + t) u n])) = Ok (out, w') ->
  from <> u /\ 1 <= n mod 2 ^ 64 <= 100 /\ forall au, auction w a t u = Some au -> au_block au <= w_seq w.
Proof.
  intros Hr Ht H.
  destruct (C21_no_self_fill _ _ _ _ _ _ _ _ _ t (mkReq (6 + t) u n) Hr H ltac:(left) Ht eq_refl) as (Hne & au & Hau & Hb).
  split; [exact Hne|]. split; [apply (C19_percent_in_range _ _ _ _ _ _ _ _ _ (mkReq (6 + t) u n) Hr H ltac:(left)); simpl; lia|].
  intros au' Hau'. cbn [rq_addr] in Hau. rewrite Hau in Hau'. by injection Hau' as <-.
Qed.

(** user liquidations: the filler's gain of collateral and of debt, which the user loses *)
Theorem C17_liquidation_fill : forall w sg a filler spender to u n out w',
  reachable w -> exec w (OPool sg a (PSubmit filler spender to [mkReq 6 u n])) = Ok (out, w') ->
  exists au, auction w a 0 u = Some au /\
    let pct := n mod 2 ^ 64 in let age := w_seq w - au_block au in
    1 <= pct <= 100 /\ 0 <= age /\ forall r,
      collateral (account w' a filler) r = collateral (account w a filler) r + gets (amount_at (au_lot au) r) pct age /\
      collateral (account w' a u) r = collateral (account w a u) r - gets (amount_at (au_lot au) r) pct age /\
      owed (account w' a filler) r = owed (account w a filler) r + pays (amount_at (au_bid au) r) pct age /\
      owed (account w' a u) r = owed (account w a u) r - pays (amount_at (au_bid au) r) pct age.
Proof.
  intros w sg a filler spender to u n out w' Hr H.
  destruct (fill_facts w sg a filler spender to 0 u n out w' Hr ltac:(lia) H) as (Hne & Hp & Hb).
  destruct (C20_fill_moves_exactly _ _ _ _ _ _ _ _ _ _ Hr H) as (au & Hau & _ & Hm & _). exists au. split; [done|]. cbv zeta.
  specialize (Hb _ Hau). split; [done|]. split; [lia|]. intros r.
  destruct (Hm filler r) as (F1 & F2 & _). destruct (Hm u r) as (U1 & U2 & _). rewrite !filled_lot in F1, U1. rewrite !filled_bid in F2, U2.
  rewrite Z.eqb_refl in *. rewrite (proj2 (Z.eqb_neq filler u)) in * by done. rewrite (proj2 (Z.eqb_neq u filler)) in * by congruence. lia.
Qed.

(** bad-debt auctions: the filler gets backstop tokens and takes over debt of the backstop *)
Theorem C17_bad_debt_fill : forall w sg a filler spender to u n out w',
  reachable w -> exec w (OPool sg a (PSubmit filler spender to [mkReq 7 u n])) = Ok (out, w') ->
  exists au, auction w a 1 u = Some au /\
    let pct := n mod 2 ^ 64 in let age := w_seq w - au_block au in
    1 <= pct <= 100 /\ 0 <= age /\
    backstop_tokens w' a = backstop_tokens w a - gets (amount_at (au_lot au) (backstop_token w)) pct age /\
    (filler <> bs_addr -> held w' (backstop_token w) filler = held w (backstop_token w) filler + gets (amount_at (au_lot au) (backstop_token w)) pct age) /\
    (filler <> ps_backstop (pool w a) -> forall r, owed (account w' a filler) r = owed (account w a filler) r + pays (amount_at (au_bid au) r) pct age).
Proof.
  intros w sg a filler spender to u n out w' Hr H.
  destruct (fill_facts w sg a filler spender to 1 u n out w' Hr ltac:(lia) H) as (Hne & Hp & Hb).
  destruct (C24_fill _ _ _ _ _ _ _ _ _ _ Hr H) as (au & lot & Hau & Hm). cbv zeta in Hm.
  destruct Hm as (Hlot & _ & Hbt & _ & Hh & burned & _ & Ho & _). exists au. split; [done|]. cbv zeta.
  specialize (Hb _ Hau). split; [done|]. split; [lia|]. rewrite filled_lot in Hlot. rewrite Hlot. split; [done|]. split.
  - intros Hf. rewrite Hh, !Z.eqb_refl, (proj2 (Z.eqb_neq filler bs_addr)) by done. lia.
  - intros Hf r. destruct (Ho filler r) as (-> & _). rewrite Z.eqb_refl, (proj2 (Z.eqb_neq filler _)) by done. rewrite filled_bid. lia.
Qed.

(** interest auctions: the filler pays backstop tokens and gets the lot from the pool *)
Theorem C17_interest_fill : forall w sg a filler spender to u n out w',
  reachable w -> exec w (OPool sg a (PSubmit filler spender to [mkReq 8 u n])) = Ok (out, w') -> filler <> bs_addr -> filler <> a ->
  exists au, auction w a 2 u = Some au /\
    let pct := n mod 2 ^ 64 in let age := w_seq w - au_block au in
    1 <= pct <= 100 /\ 0 <= age /\
    backstop_tokens w' a = backstop_tokens w a + pays (amount_at (au_bid au) (backstop_token w)) pct age /\
    forall tok, held w' tok filler = held w tok filler + gets (amount_at (au_lot au) tok) pct age
      - (if tok =? backstop_token w then pays (amount_at (au_bid au) tok) pct age else 0).
Proof.
  intros w sg a filler spender to u n out w' Hr H Hf1 Hf2.
  destruct (fill_facts w sg a filler spender to 2 u n out w' Hr ltac:(lia) H) as (Hne & Hp & Hb).
  destruct (C25_fill _ _ _ _ _ _ _ _ _ _ Hr H) as (au & bid & Hau & _ & Hm). cbv zeta in Hm.
  destruct Hm as (Hbid & _ & Hbt & _ & Hh & _). exists au. split; [done|]. cbv zeta.
  specialize (Hb _ Hau). split; [done|]. split; [lia|]. rewrite filled_bid in Hbid. rewrite Hbid. split; [done|].
  intros tok. rewrite Hh, Z.eqb_refl, (proj2 (Z.eqb_neq filler bs_addr)), (proj2 (Z.eqb_neq filler a)) by done. rewrite filled_lot.
  destruct (Z.eqb_spec tok (backstop_token w)) as [->|]; [rewrite Hbid|]; lia.
Qed.

(** waiting never makes a fill worse: what a fill gets never falls and what it pays never
    rises with the age of the auction *)
Theorem C17_waiting_never_hurts : forall v pct age age', 0 <= pct -> 0 <= age <= age' ->
  gets v pct age <= gets v pct age' /\ pays v pct age' <= pays v pct age.
Proof.
  intros v pct age age' Hp Ha.
  assert (0 <= lot_share age <= lot_share age') by (unfold lot_share; lia).
  assert (0 <= bid_share age' <= bid_share age) by (unfold bid_share; destruct (Z.leb_spec age 200), (Z.leb_spec age' 200); lia).
  unfold gets, pays. split.
  - destruct (Z.le_gt_cases 0 (v * pct / 100)).
    + apply Z.max_le_compat_l. apply Z.div_le_mono; nia.
    + assert (v * pct / 100 * lot_share age / 10000000 <= 0) by (apply Z.div_le_upper_bound; nia). lia.
  - destruct (Z.le_gt_cases 0 (cdiv (v * pct) 100)).
    + apply Z.max_le_compat_l. apply cdiv_mono; nia.
    + assert (cdiv (cdiv (v * pct) 100 * bid_share age') 10000000 <= 0); [|lia].
      pose proof (cdiv_spec (cdiv (v * pct) 100 * bid_share age') 10000000 ltac:(lia)). nia.
Qed.
(** the same auction, the same percentage, an earlier and a later ledger *)
Theorem C17_waiting_liquidation : forall w1 w2 sg1 sg2 a f1 f2 s1 s2 t1 t2 u n o1 o2 w1' w2',
  reachable w1 -> reachable w2 -> auction w1 a 0 u = auction w2 a 0 u -> w_seq w1 <= w_seq w2 ->
  exec w1 (OPool sg1 a (PSubmit f1 s1 t1 [mkReq 6 u n])) = Ok (o1, w1') ->
  exec w2 (OPool sg2 a (PSubmit f2 s2 t2 [mkReq 6 u n])) = Ok (o2, w2') -> forall r,
  collateral (account w1' a f1) r - collateral (account w1 a f1) r <= collateral (account w2' a f2) r - collateral (account w2 a f2) r /\
  owed (account w2' a f2) r - owed (account w2 a f2) r <= owed (account w1' a f1) r - owed (account w1 a f1) r.
Proof.
  intros w1 w2 sg1 sg2 a f1 f2 s1 s2 t1 t2 u n o1 o2 w1' w2' R1 R2 Ea Hs H1 H2 r.
  destruct (C17_liquidation_fill _ _ _ _ _ _ _ _ _ _ R1 H1) as (au & A1 & P1 & G1 & F1).
  destruct (C17_liquidation_fill _ _ _ _ _ _ _ _ _ _ R2 H2) as (au2 & A2 & P2 & G2 & F2). cbv zeta in *.
  assert (au2 = au) as -> by congruence. destruct (F1 r) as (X1 & _ & Y1 & _). destruct (F2 r) as (X2 & _ & Y2 & _).
  pose proof (C17_waiting_never_hurts (amount_at (au_lot au) r) (n mod 2 ^ 64) (w_seq w1 - au_block au) (w_seq w2 - au_block au) ltac:(lia) ltac:(lia)).
  pose proof (C17_waiting_never_hurts (amount_at (au_bid au) r) (n mod 2 ^ 64) (w_seq w1 - au_block au) (w_seq w2 - au_block au) ltac:(lia) ltac:(lia)).
  lia.
Qed.
