(** * Rounding costs less than one share per request (C97) *)
From Verif Require Import Base Types Token Emitter Factory Backstop PoolReserve PoolUser PoolHealth
  PoolAuction PoolSubmit PoolEmis PoolAdmin World Facts XMove Spec PoolFrame PoolCfg PoolAccrue PoolTrace PoolInv
  PoolSim PoolReq PoolHF PoolOps PoolReach PoolTx PropsPool1 PropsPool2 PropsPool3.

(** ** Specification: the most that rounding may cost, times 10^9: for every request on the asset [r],
    a supply or withdrawal less than the price of one bToken, a borrowing or repayment less than the
    price of one dToken *)
Fixpoint rounding (br dr r : Z) (qs : list Request) : Z :=
  match qs with
  | [] => 0
  | q :: qs => (if r =? rq_addr q then (if rq_type q <=? 3 then br - 1 else dr - 1) else 0) + rounding br dr r qs
  end.

Lemma request_cost br dr acc q r : plain q -> 0 <= rq_amt q -> 1000000000 <= br r -> 1000000000 <= dr r ->
  0 <= supplied acc r -> 0 <= collateral acc r -> 0 <= owed acc r ->
  let '(acc', i, o) := request br dr acc q in
  0 <= supplied acc' r /\ 0 <= collateral acc' r /\ 0 <= owed acc' r /\
  br r * ((supplied acc r - supplied acc' r) + (collateral acc r - collateral acc' r)) + dr r * (owed acc' r - owed acc r) <=
    1000000000 * (if r =? rq_addr q then o - i else 0) + (if r =? rq_addr q then (if rq_type q <=? 3 then br r - 1 else dr r - 1) else 0).
Proof.
  intros Hp Hn Hb Hd H1 H2 H3.
  pose proof (request_value br dr acc q r Hp Hn ltac:(lia) ltac:(lia) H1 H2 H3) as Hv.
  unfold request, plain in *.
  assert (r <> rq_addr q -> forall f n, upd f (rq_addr q) n r = f r) as Hne.
  { intros H f n. unfold upd. destruct (Z.eqb_spec r (rq_addr q)); [done|lia]. }
  assert (forall f n, upd f r n r = f r + n) as Heq by (intros; unfold upd; by rewrite Z.eqb_refl).
  destruct (Z.eqb_spec r (rq_addr q)) as [He|Hr]; swap 1 2.
  { clear Hv. repeat match goal with |- context [if ?b then _ else _] => destruct b end; simpl; rewrite ?(Hne Hr); nia. }
  rewrite <- He in *. set (n := rq_amt q) in *. unfold down, up in *.
  pose proof (fdiv_spec (n * 1000000000) (br r) ltac:(lia)) as F1. pose proof (cdiv_spec (n * 1000000000) (br r) ltac:(lia)) as F2.
  pose proof (fdiv_spec (n * 1000000000) (dr r) ltac:(lia)) as F3. pose proof (cdiv_spec (n * 1000000000) (dr r) ltac:(lia)) as F4.
  assert (forall x, x - 1000000000 < 1000000000 * (x / 1000000000)) as F5 by (intros x; pose proof (fdiv_spec x 1000000000); lia).
  assert (forall x, 1000000000 * cdiv x 1000000000 < x + 1000000000) as F6 by (intros x; pose proof (cdiv_spec x 1000000000); lia).
  pose proof (F5 (supplied acc r * br r)). pose proof (F5 (collateral acc r * br r)). pose proof (F6 (owed acc r * dr r)).
  destruct (Z.eqb_spec (rq_type q) 0) as [->|]; [simpl in *; rewrite !Heq in *; (split; [tauto|split; [tauto|split; [tauto|nia]]])|].
  destruct (Z.eqb_spec (rq_type q) 1) as [->|].
  { destruct (Z.ltb_spec (supplied acc r) (cdiv (n * 1000000000) (br r))); simpl in *; rewrite !Heq in *; (split; [tauto|split; [tauto|split; [tauto|nia]]]). }
  destruct (Z.eqb_spec (rq_type q) 2) as [->|]; [simpl in *; rewrite !Heq in *; (split; [tauto|split; [tauto|split; [tauto|nia]]])|].
  destruct (Z.eqb_spec (rq_type q) 3) as [->|].
  { destruct (Z.ltb_spec (collateral acc r) (cdiv (n * 1000000000) (br r))); simpl in *; rewrite !Heq in *; (split; [tauto|split; [tauto|split; [tauto|nia]]]). }
  destruct (Z.eqb_spec (rq_type q) 4) as [->|]; [simpl in *; rewrite !Heq in *; (split; [tauto|split; [tauto|split; [tauto|nia]]])|].
  assert (rq_type q = 5) as -> by lia.
  destruct (Z.ltb_spec (owed acc r) (n * 1000000000 / dr r)); simpl in *; rewrite !Heq in *; (split; [tauto|split; [tauto|split; [tauto|nia]]]).
Qed.
Lemma requests_cost br dr r qs : 1000000000 <= br r -> 1000000000 <= dr r -> forall acc,
  Forall plain qs -> (forall q, q ∈ qs -> 0 <= rq_amt q) ->
  0 <= supplied acc r -> 0 <= collateral acc r -> 0 <= owed acc r ->
  let '(acc', i, o) := requests br dr acc qs in
  br r * ((supplied acc r - supplied acc' r) + (collateral acc r - collateral acc' r)) + dr r * (owed acc' r - owed acc r) <=
    1000000000 * (o r - i r) + rounding (br r) (dr r) r qs.
Proof.
  intros Hb Hd. induction qs as [|q qs IH]; intros acc Hpl Hn H1 H2 H3; [simpl; lia|].
  apply Forall_cons in Hpl as [Hp Hpl]. cbn [requests rounding].
  pose proof (request_cost br dr acc q r Hp (Hn q ltac:(left)) Hb Hd H1 H2 H3) as Hv.
  destruct (request br dr acc q) as [[a1 i1] o1]. destruct Hv as (P1 & P2 & P3 & Hv).
  specialize (IH a1 Hpl (fun q' H => Hn q' (elem_of_list_further _ _ _ H)) P1 P2 P3).
  destruct (requests br dr a1 qs) as [[a2 i2] o2]. unfold upd. destruct (r =? rq_addr q); lia.
Qed.

(** ** C97

    A submit of supplies, withdrawals, borrowings and repayments costs the account no more than the
    tokens that left it, up to less than one share per request: what its position on a reserve loses
    in worth (times 10^9, at the rates of the ledger) is at most what the pool paid out of the
    reserve's asset plus [rounding].  With [C06_no_extraction] the change of worth is known up to
    that much. *)
Theorem C97_rounding_cost : forall w sg a from spender to qs out w' r d,
  reachable w -> exec w (OPool sg a (PSubmit from spender to qs)) = Ok (out, w') -> Forall plain qs ->
  reserve w a r = Some d ->
  worth w a r (account w a from) - worth w a r (account w' a from) <=
    1000000000 * (held w r a - held w' r a) + rounding (b_rate_now w a r) (d_rate_now w a r) r qs.
Proof.
  intros w sg a from spender to qs out w' r d Hr H Hpl Hd.
  destruct (rates_pos _ _ _ _ Hr Hd) as [Hb Hd'].
  destruct (account_nonneg w a from r Hr) as (P1 & P2 & P3).
  pose proof (C13_plain_submit _ _ _ _ _ _ _ _ _ Hr H Hpl) as H13.
  apply submit_tx in H as (_ & _ & _ & _ & _ & _ & Hsa & Hta & _ & ls & x1 & ac & chk & t1 & t2 & pos & _ & _ & Hqs & _); [|done].
  pose proof (requests_cost (b_rate_now w a) (d_rate_now w a) r qs ltac:(lia) ltac:(lia) (account w a from) Hpl (areqs_amt _ _ _ _ _ _ _ Hqs) P1 P2 P3) as Hv.
  destruct (requests _ _ _ qs) as [[acc ins] outs]. destruct H13 as [(A1 & A2 & A3) Hh].
  rewrite Hh. rewrite Z.eqb_refl. destruct (Z.eqb_spec a spender); [congruence|]. destruct (Z.eqb_spec a to); [congruence|].
  unfold worth. rewrite A1, A2, A3. nia.
Qed.


(** One supply of [n]: all of it is credited to the account, but for less than the price of one
    bToken; and never more than [n]. *)
Theorem C97_supply_credited : forall w sg a from spender to t r n out w' d,
  reachable w -> exec w (OPool sg a (PSubmit from spender to [mkReq t r n])) = Ok (out, w') -> t = 0 \/ t = 2 ->
  reserve w a r = Some d ->
  worth w a r (account w a from) + 1000000000 * n - b_rate_now w a r < worth w a r (account w' a from) <=
    worth w a r (account w a from) + 1000000000 * n.
Proof.
  intros w sg a from spender to t r n out w' d Hr H Ht Hd.
  assert (Forall plain [mkReq t r n]) as Hpl by (constructor; [unfold plain; simpl; lia|constructor]).
  pose proof (C06_no_extraction _ _ _ _ _ _ _ _ _ _ _ Hr H Hpl Hd) as H1.
  pose proof (C97_rounding_cost _ _ _ _ _ _ _ _ _ _ _ Hr H Hpl Hd) as H2.
  pose proof (C13_plain_submit _ _ _ _ _ _ _ _ _ Hr H Hpl) as H13.
  apply submit_tx in H as (_ & _ & _ & _ & _ & _ & Hsa & Hta & _); [|done].
  cbn [requests] in H13. unfold request in H13. cbn [rq_type rq_addr rq_amt] in H13.
  cbn [rounding rq_type rq_addr] in H2. rewrite Z.eqb_refl in H2.
  destruct Ht as [-> | ->]; cbn [Z.eqb Z.leb Z.compare Pos.eqb Pos.compare Pos.compare_cont] in H13, H2; destruct H13 as [_ Hh];
    specialize (Hh r a); unfold upd in Hh; rewrite !Z.eqb_refl in Hh;
    destruct (Z.eqb_spec a spender); [congruence| |congruence|]; (destruct (Z.eqb_spec a to); [congruence|]); lia.
Qed.
(** One borrowing of [n]: the debt grows by [n], and by less than the price of one dToken more. *)
Theorem C97_loan_charged : forall w sg a from spender to r n out w' d,
  reachable w -> exec w (OPool sg a (PSubmit from spender to [mkReq 4 r n])) = Ok (out, w') ->
  reserve w a r = Some d ->
  worth w a r (account w a from) - 1000000000 * n - d_rate_now w a r < worth w a r (account w' a from) <=
    worth w a r (account w a from) - 1000000000 * n.
Proof.
  intros w sg a from spender to r n out w' d Hr H Hd.
  assert (Forall plain [mkReq 4 r n]) as Hpl by (constructor; [unfold plain; simpl; lia|constructor]).
  pose proof (C06_no_extraction _ _ _ _ _ _ _ _ _ _ _ Hr H Hpl Hd) as H1.
  pose proof (C97_rounding_cost _ _ _ _ _ _ _ _ _ _ _ Hr H Hpl Hd) as H2.
  pose proof (C13_plain_submit _ _ _ _ _ _ _ _ _ Hr H Hpl) as H13.
  apply submit_tx in H as (_ & _ & _ & _ & _ & _ & Hsa & Hta & _); [|done].
  cbn [requests] in H13. unfold request in H13. cbn [rq_type rq_addr rq_amt] in H13.
  cbn [rounding rq_type rq_addr] in H2. rewrite Z.eqb_refl in H2.
  cbn [Z.eqb Z.leb Z.compare Pos.eqb Pos.compare Pos.compare_cont] in H13, H2; destruct H13 as [_ Hh];
    specialize (Hh r a); unfold upd in Hh; rewrite !Z.eqb_refl in Hh;
    destruct (Z.eqb_spec a spender); [congruence|]; (destruct (Z.eqb_spec a to); [congruence|]); lia.
Qed.
