(** * A fresh loan is not liquidated in the ledger in which it is taken (C95) *)
From Verif Require Import Base Types Token Emitter Factory Backstop PoolReserve PoolUser PoolHealth
  PoolAuction PoolSubmit PoolEmis PoolAdmin World Facts XMove Spec PoolFrame PoolCfg PoolAccrue PoolTrace PoolInv AuctionFacts
  PoolSim PoolReq PoolHF PoolOps PoolLiq PoolReach PoolTx FrameFacts PropsAdmin PropsAdmin2 PropsAdmin3 PropsPool1 PropsPool2 PropsPool3 PropsPool4 PropsPool14 PropsPool30 PropsPool36 PropsPool38.

(** ** C95

    After a submit that passed the health check (because it borrowed, withdrew collateral or took
    over a position), with debt and with no auction open on the account, nobody can start a
    liquidation of the account or change its positions in the same ledger, unless the owner acts, a
    quote turns against him, or the pool's configuration is changed; provided that the oracle of
    the pool has at least five decimals. *)
Theorem C95_no_liquidation_in_the_same_ledger : forall w sg a from spender to qs out w' l,
  reachable w -> prices_nonneg w a ->
  exec w (OPool sg a (PSubmit from spender to qs)) = Ok (out, w') ->
  (exists q, q ∈ qs /\ risk_increasing q) ->
  (forall dec, o_dec (x_orc (w_ext w')) !! pc_oracle (ps_config (pool w' a)) = Some dec -> 5 <= dec) ->
  0 < weighted_debt w' a from -> from <> ps_backstop (pool w' a) -> auction w' a 0 from = None ->
  (forall o, o ∈ l -> from ∉ signers o) -> Forall (calm a) l -> (forall orc, OOracle orc ∈ l -> no_worse w' a from orc) ->
  positions (run w' l) a from = positions w' a from /\ auction (run w' l) a 0 from = None /\
  weighted_coll w' a from <= weighted_coll (run w' l) a from /\ 0 <= weighted_debt (run w' l) a from <= weighted_debt w' a from /\
  forall sg pct, ~ succeeds (run w' l) (OPool sg a (PNewLiq from pct)).
Proof.
  intros w sg a from spender to qs out w' l Hr Hp H Hq Hdec Hpos Hb Hau Hu Hl Ho.
  assert (reachable w') as Hr' by (by eapply reachable_step).
  assert (ps_init (pool w' a) = true) as Hi.
  { destruct (tx_good _ _ _ _ _ _ Hr H) as [Hi _]; [done|]. destruct (proj2 (proj2 (proj2 (C61_initialized_once w [OPool sg a (PSubmit from spender to qs)]))) a Hi) as (Hx & _).
    cbn [run] in Hx. unfold step in Hx. by rewrite H in Hx. }
  assert (po_liab (positions w' a from) <> ∅) as Hne.
  { intros E. unfold weighted_debt, eff_liab, over_reserves in Hpos. rewrite (sumz_ext _ (fun _ => 0)) in Hpos.
    - assert (forall (A : Type) (l : list A), sumz (fun _ => 0) l = 0) as Hz by (intros A m; induction m as [|x m IH]; [done|]; rewrite sumz_cons, IH; done). rewrite Hz in Hpos. lia.
    - intros [i r] _. cbn [fst snd]. unfold liab_eff1, d_assets, get_liab, getz. rewrite E, lookup_empty. cbn [default from_option]. repeat (rewrite Z.mul_0_l || rewrite cdiv_0 || rewrite Z.mul_0_r). done. }
  destruct (C08_healthy_after_risk _ _ _ _ _ _ _ _ _ Hr Hp H Hq Hne) as (dec & Hd & Hh). specialize (Hdec _ Hd).
  apply C91_what_endangers_an_account; try done. fold (weighted_debt w' a from) (weighted_coll w' a from) in Hh.
  set (D := weighted_debt w' a from) in *. set (C := weighted_coll w' a from) in *. clearbody D C. split; [lia|].
  replace dec with (5 + (dec - 5)) in Hh by lia. rewrite Z.pow_add_r in Hh by lia. change (10 ^ 5) with 100000 in Hh.
  assert (0 < 10 ^ (dec - 5)) as Ht by (apply Z.pow_pos_nonneg; lia). set (t := 10 ^ (dec - 5)) in *. clearbody t.
  replace (100000 * t * 10000100 / 10000000) with (100001 * t) in Hh; [nia|]. apply Z.div_unique_exact; lia.
Qed.
