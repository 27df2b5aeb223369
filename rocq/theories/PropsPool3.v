(** * Pool properties: C06, C07, C13 *)
From Verif Require Import Base Types Token Emitter Factory Backstop PoolReserve PoolUser PoolHealth
  PoolAuction PoolSubmit PoolEmis PoolAdmin World Facts XMove Spec PoolFrame PoolCfg PoolAccrue PoolTrace PoolInv AuctionFacts
  PoolSim PoolReq PoolHF PoolOps PoolLiq PoolReach PoolTx FrameFacts PropsPool1 PropsPool2.

(** ** Specification: what a list of supply, withdraw, borrow and repay requests does

    [br r], [dr r] are the bToken and dToken rates of reserve [r] (9 decimals); the
    account holds [supplied], [collateral] (bTokens) and [owed] (dTokens). *)
Record Account := mkAccount { supplied : Addr -> Z; collateral : Addr -> Z; owed : Addr -> Z }.
Definition upd (f : Addr -> Z) (r n : Z) : Addr -> Z := fun r' => f r' + if r' =? r then n else 0.
Definition add_supplied (acc : Account) (r n : Z) : Account := mkAccount (upd (supplied acc) r n) (collateral acc) (owed acc).
Definition add_coll (acc : Account) (r n : Z) : Account := mkAccount (supplied acc) (upd (collateral acc) r n) (owed acc).
Definition add_owed (acc : Account) (r n : Z) : Account := mkAccount (supplied acc) (collateral acc) (upd (owed acc) r n).

(** shares worth [n] underlying at [rate] (9 decimals), rounded down and up *)
Definition down (n rate : Z) : Z := n * 1000000000 / rate.
Definition up (n rate : Z) : Z := cdiv (n * 1000000000) rate.

Section Requests.
  Context (br dr : Addr -> Z).
  (** the account after a request, what the spender pays in, what [to] receives.
      0 supply, 1 withdraw, 2 supply collateral, 3 withdraw collateral, 4 borrow, 5 repay *)
  Definition request (acc : Account) (q : Request) : Account * Z * Z :=
    let r := rq_addr q in
    let n := rq_amt q in
    if rq_type q =? 0 then (add_supplied acc r (down n (br r)), n, 0)
    else if rq_type q =? 1 then
      if supplied acc r <? up n (br r)
      then (add_supplied acc r (- supplied acc r), 0, supplied acc r * br r / 1000000000)
      else (add_supplied acc r (- up n (br r)), 0, n)
    else if rq_type q =? 2 then (add_coll acc r (down n (br r)), n, 0)
    else if rq_type q =? 3 then
      if collateral acc r <? up n (br r)
      then (add_coll acc r (- collateral acc r), 0, collateral acc r * br r / 1000000000)
      else (add_coll acc r (- up n (br r)), 0, n)
    else if rq_type q =? 4 then (add_owed acc r (up n (dr r)), 0, n)
    else
      if owed acc r <? down n (dr r)
      then (add_owed acc r (- owed acc r), n, n - cdiv (owed acc r * dr r) 1000000000)
      else (add_owed acc r (- down n (dr r)), n, 0).
  (** all requests in order: final account, total paid in and paid out per asset *)
  Fixpoint requests (acc : Account) (qs : list Request) : Account * (Addr -> Z) * (Addr -> Z) :=
    match qs with
    | [] => (acc, fun _ => 0, fun _ => 0)
    | q :: qs =>
        let '(acc1, i, o) := request acc q in
        let '(acc2, ins, outs) := requests acc1 qs in
        (acc2, upd ins (rq_addr q) i, upd outs (rq_addr q) o)
    end.
End Requests.

(** the account of [u] in the pool at [a] *)
Definition index_of (w : World) (a r : Addr) : Z :=
  match ps_rcfg (pool w a) !! r with Some cfg => rc_index cfg | None => -1 end.
Definition account (w : World) (a u : Addr) : Account :=
  mkAccount (fun r => sup_of w a u (index_of w a r)) (fun r => coll_of w a u (index_of w a r)) (fun r => liab_of w a u (index_of w a r)).
(** rates of a reserve with interest accrued up to now *)
Definition b_rate_now (w : World) (a r : Addr) : Z := rd_b_rate (data_at (w_now w) (pool w a) r).
Definition d_rate_now (w : World) (a r : Addr) : Z := rd_d_rate (data_at (w_now w) (pool w a) r).
Definition held (w : World) (tok u : Addr) : Z := balance (x_tok (w_ext w)) tok u.
Definition plain (q : Request) : Prop := 0 <= rq_type q <= 5.
Definition same_acc (a b : Account) : Prop :=
  (forall r, supplied a r = supplied b r) /\ (forall r, collateral a r = collateral b r) /\ (forall r, owed a r = owed b r).

(** ** Lemmas *)
Definition acc_k (k : kind) (acc : Account) : Addr -> Z :=
  match k with KSup => supplied acc | KColl => collateral acc | KLiab => owed acc end.
Lemma same_acc_k a b : same_acc a b <-> forall k r, acc_k k a r = acc_k k b r.
Proof.
  split; [intros (H1 & H2 & H3) [] r; simpl; auto|]. intros H. split; [intros; by apply (H KSup)|].
  split; intros; [by apply (H KColl)|by apply (H KLiab)].
Qed.

Lemma request_flow br dr acc q d :
  plain q -> rd_b_rate d = br (rq_addr q) -> rd_d_rate d = dr (rq_addr q) ->
  exists acc', request br dr acc q = (acc', (flow (rq_type q) d (acc_k (req_kind (rq_type q)) acc (rq_addr q)) (rq_amt q)).1.2,
      (flow (rq_type q) d (acc_k (req_kind (rq_type q)) acc (rq_addr q)) (rq_amt q)).2) /\
    forall k r, acc_k k acc' r = acc_k k acc r +
      if decide (req_kind (rq_type q) = k /\ rq_addr q = r) then (flow (rq_type q) d (acc_k (req_kind (rq_type q)) acc (rq_addr q)) (rq_amt q)).1.1 else 0.
Proof.
  intros Hp Hb Hd. unfold plain in Hp. unfold request, flow, down, up. rewrite Hb, Hd.
  assert (forall (k : kind) r (n : Z) r', (if r' =? r then n else 0) = if decide (k = k /\ r = r') then n else 0) as Hup.
  { intros k r n r'. destruct (Z.eqb_spec r' r) as [->|Hn]; [by rewrite decide_True|]. rewrite decide_False by (intros [_ ?]; congruence). done. }
  assert (rq_type q = 0 \/ rq_type q = 1 \/ rq_type q = 2 \/ rq_type q = 3 \/ rq_type q = 4 \/ rq_type q = 5) as Ht by lia.
  destruct Ht as [E|[E|[E|[E|[E|E]]]]]; rewrite E; simpl Z.eqb; cbv iota; simpl orb; cbv iota;
    change (req_kind 0) with KSup; change (req_kind 1) with KSup; change (req_kind 2) with KColl; change (req_kind 3) with KColl;
    change (req_kind 4) with KLiab; change (req_kind 5) with KLiab; cbn [acc_k];
    try match goal with |- context [if ?b <? ?c then _ else _] => destruct (b <? c) end; cbn [fst snd];
    (eexists; split; [reflexivity|]); intros k r; destruct k; cbn [acc_k supplied collateral owed add_supplied add_coll add_owed]; unfold upd;
    match goal with |- context [decide ?P] => destruct (decide P) as [[Hk Hr']|Hd'] end;
    try discriminate Hk; destruct (Z.eqb_spec r (rq_addr q)) as [Hrq|Hrq]; try lia; try (exfalso; apply Hd'; done); congruence.
Qed.

Lemma requests_ext br dr acc1 acc2 qs : same_acc acc1 acc2 ->
  same_acc (requests br dr acc1 qs).1.1 (requests br dr acc2 qs).1.1 /\
  (forall r, (requests br dr acc1 qs).1.2 r = (requests br dr acc2 qs).1.2 r) /\
  (forall r, (requests br dr acc1 qs).2 r = (requests br dr acc2 qs).2 r).
Proof.
  revert acc1 acc2. induction qs as [|q qs IH]; intros acc1 acc2 H; [done|].
  assert (exists a1 a2 i o, request br dr acc1 q = (a1, i, o) /\ request br dr acc2 q = (a2, i, o) /\ same_acc a1 a2) as (a1 & a2 & i & o & E1 & E2 & Hs).
  { destruct H as (H1 & H2 & H3). unfold request. rewrite !H1, !H2, !H3.
    repeat match goal with |- context [if ?b then _ else _] => destruct b end; (do 4 eexists; split; [reflexivity|]; split; [reflexivity|]);
      (split; [|split]; intros r; simpl; unfold upd; rewrite ?H1, ?H2, ?H3; done). }
  simpl. rewrite E1, E2. destruct (IH a1 a2 Hs) as (I1 & I2 & I3).
  destruct (requests br dr a1 qs) as [[x1 y1] z1]. destruct (requests br dr a2 qs) as [[x2 y2] z2]. cbn [fst snd] in *.
  split; [done|]. split; intros r; unfold upd; rewrite ?I2, ?I3; done.
Qed.

(** what a list of plain requests does between the first and the last state *)
Lemma areqs_plain c self from br dr s qs ls s' : areqs c self from s qs ls s' -> forall acc,
  good (as_p s) -> (forall q, q ∈ qs -> plain q) ->
  (forall r cfg, ps_rcfg (as_p s) !! r = Some cfg -> rd_b_rate (data_at (c_now c) (as_p s) r) = br r /\ rd_d_rate (data_at (c_now c) (as_p s) r) = dr r) ->
  (forall k r, shares (as_p s) k from r = acc_k k acc r) ->
  as_x s' = as_x s /\
  (forall k r, shares (as_p s') k from r = acc_k k (requests br dr acc qs).1.1 r) /\
  (forall r, getz (ac_spender (as_ac s')) r = getz (ac_spender (as_ac s)) r + (requests br dr acc qs).1.2 r) /\
  (forall r, getz (ac_pool (as_ac s')) r = getz (ac_pool (as_ac s)) r + (requests br dr acc qs).2 r).
Proof.
  induction 1 as [s|s q qs l1 s1 l2 s2 Hamt Hal Hq Hqs IH]; intros acc G Hpl Hra Hsh.
  - split; [done|]. split; [intros; simpl; apply Hsh|]. simpl. split; intros; lia.
  - assert (plain q) as Hpq by (apply Hpl; left).
    pose proof (areq_trace _ _ _ _ _ _ _ Hq) as T. pose proof (ptrace_cfg _ _ _ _ T) as (_ & _ & _ & _ & _ & _ & Hrc & _).
    assert (good (as_p s1)) as G1 by (by eapply ptrace_good).
    inversion Hq as [L x ac0 chk0 cfg d L1 L2 d2 dl pin pout ac' Hty Hc M1 Hd1 Hfl M2 Hd2 Hu Hp1 Hp2 A1 A2|? ? ? ? ? ? ? ? Ht'|? ? ? ? ? ? ? ? ? ? ? ? ? ? Ht'|? ? ? ? ? ? ? ? ? ? ? ? Ht'|? ? ? ? ? Ht']; subst;
      try (unfold plain in Hpq; exfalso; rewrite Ht' in Hpq; clear - Hpq; lia).
    cbn [as_p as_x as_ac] in *.
    assert (data_at (c_now c) L (rq_addr q) = d) as Hda.
    { inversion M1 as [a0 cfg0 d0 d0' E1 E2 E3| | | | |]; subst. cbn in Hd1. rewrite lookup_insert in Hd1. injection Hd1 as ->.
      unfold data_at. rewrite Hc, E2. assert (cfg0 = cfg) by congruence. subst cfg0. by rewrite E3. }
    destruct (Hra _ _ Hc) as [Hb Hd]. rewrite Hda in Hb, Hd.
    assert (getz (get_k (req_kind (rq_type q)) (get_pos L1 from)) (rc_index cfg) = acc_k (req_kind (rq_type q)) acc (rq_addr q)) as Hcur.
    { rewrite <- Hsh. unfold shares. rewrite Hc. inversion M1; subst. done. }
    rewrite Hcur in Hfl. destruct (request_flow br dr acc q d Hpq Hb Hd) as (acc1 & Er & Hacc). rewrite Hfl in Er, Hacc. cbn [fst snd] in Er, Hacc.
    destruct (IH acc1) as (I1 & I2 & I3 & I4).
    + exact G1.
    + intros q' Hin. apply Hpl. by right.
    + intros r cfg' Hc'. destruct (trace_data _ _ _ _ r T) as [-> ->]. rewrite Hrc in Hc'. by eapply Hra.
    + intros k r. rewrite (trace_shares _ _ _ _ k from r G T), Hsh, Hacc. f_equal.
      rewrite ?sumz_cons, ?sumz_nil. cbn [contrib]. rewrite Z.add_0_l, Z.add_0_r.
      destruct (decide (req_kind (rq_type q) = k /\ rq_addr q = r)) as [[H1 H2]|Hn]; [by rewrite decide_True|].
      rewrite decide_False; [done|]. tauto.
    + simpl. rewrite Er. destruct (requests br dr acc1 qs) as [[x1 y1] z1]. cbn [fst snd] in *.
      split; [by rewrite I1|]. split; [done|].
      split; intros r; unfold upd; [rewrite I3, (A1 r)|rewrite I4, (A2 r)]; lia.
Qed.

Lemma transfer_all_spec c from to t m t' :
  transfer_all c from to t m = Ok t' ->
  forall tok a, balance t' tok a = balance t tok a - (if a =? from then getz m tok else 0) + (if a =? to then getz m tok else 0).
Proof.
  unfold transfer_all. intros H tok a.
  assert (forall l t, foldM (fun t e => transfer c t (fst e) from to (snd e)) t l = Ok t' ->
    balance t' tok a = balance t tok a - (if a =? from then sumz (fun e => if decide (e.1 = tok) then e.2 else 0) l else 0)
      + (if a =? to then sumz (fun e => if decide (e.1 = tok) then e.2 else 0) l else 0)) as Hl.
  { clear H t m. induction l as [|[b n] l IH]; intros t H.
    - injection H as ->. rewrite sumz_nil. destruct (a =? from), (a =? to); lia.
    - cbn [foldM fst snd] in H. apply bind_ok in H as (t1 & E & H). rewrite (IH _ H). rewrite sumz_cons. cbn [fst snd].
      apply transfer_move in E as [_ E]. apply tok_move_spec in E as (_ & _ & _ & Hb & _). rewrite Hb.
      destruct (decide (b = tok)) as [Hbt|Hn];
        [|rewrite !bool_decide_eq_false_2 by (intros [? ?]; congruence); destruct (a =? from), (a =? to); lia].
      destruct (Z.eqb_spec a from) as [Hf|Hf]; [rewrite (bool_decide_eq_true_2 (b = tok /\ from = a)) by done|rewrite (bool_decide_eq_false_2 (b = tok /\ from = a)) by (intros [? ?]; congruence)];
      (destruct (Z.eqb_spec a to) as [Ht|Ht]; [rewrite (bool_decide_eq_true_2 (b = tok /\ to = a)) by done|rewrite (bool_decide_eq_false_2 (b = tok /\ to = a)) by (intros [? ?]; congruence)]); lia. }
  rewrite (Hl _ _ H). rewrite (sum_entries m tok (fun v => v)). unfold getz. destruct (m !! tok); done.
Qed.

(** ** C13: token flows and positions of a submit made of plain requests *)
Theorem C13_plain_submit : forall w sg a from spender to qs out w',
  reachable w -> exec w (OPool sg a (PSubmit from spender to qs)) = Ok (out, w') -> Forall plain qs ->
  let '(acc, paid_in, paid_out) := requests (b_rate_now w a) (d_rate_now w a) (account w a from) qs in
  same_acc (account w' a from) acc /\
  (forall tok u, held w' tok u = held w tok u
     - (if u =? spender then paid_in tok else 0)
     + (if u =? a then paid_in tok - paid_out tok else 0)
     + (if u =? to then paid_out tok else 0)).
Proof.
  intros w sg a from spender to qs out w' Hr H Hpl.
  apply submit_tx in H as (G & G' & Hcfg & _ & _ & Hna & Hns & Hnt & _ & ls & x1 & ac & chk & t1 & t2 & pos & _ & _ & Hqs & Ht1 & Ht2 & Hx & _); [|done].
  assert (forall w k u r, acc_k k (account w a u) r = shares (pool w a) k u r \/ ~ good (pool w a)) as Hacc.
  { clear - a. intros w k u r. destruct (decide (ps_rcfg (pool w a) !! r = None)) as [Hn|Hn].
    - destruct (decide (get_k k (get_pos (pool w a) u) !! (-1) = None)) as [Hz|Hz].
      + left. unfold shares. rewrite Hn. destruct k; simpl in *; unfold sup_of, coll_of, liab_of, index_of, amount_at, positions; rewrite Hn, Hz; done.
      + right. intros G. destruct (get_k k (get_pos (pool w a) u) !! (-1)) eqn:E; [|done]. apply (gd_idx _ G) in E. lia.
    - left. unfold shares. destruct k; simpl; unfold sup_of, coll_of, liab_of, index_of, amount_at, positions; destruct (ps_rcfg (pool w a) !! r); done. }
  destruct (areqs_plain _ _ _ (b_rate_now w a) (d_rate_now w a) _ _ _ _ Hqs (account w a from)) as (I1 & I2 & I3 & I4); cbn [as_p as_x as_ac] in *.
  - by apply touch_good.
  - intros q Hin. rewrite Forall_forall in Hpl. auto.
  - done.
  - intros k r. destruct (Hacc w k from r) as [->|]; [|done].
    unfold shares. simpl. destruct (ps_rcfg (pool w a) !! r) as [cfg|]; [|done]. f_equal. f_equal. unfold touch, get_pos. simpl. by rewrite lookup_insert.
  - destruct (requests _ _ _ qs) as [[acc ins] outs]. cbn [fst snd] in *. split.
    + apply same_acc_k. intros k r. destruct (Hacc w' k from r) as [->|]; [|done]. apply I2.
    + intros tok u. unfold held. rewrite Hx. cbn [x_tok]. simpl.
      rewrite (transfer_all_spec _ _ _ _ _ _ Ht2), (transfer_all_spec _ _ _ _ _ _ Ht1), I1, I3, I4. simpl. unfold getz. rewrite lookup_empty. simpl.
      destruct (Z.eqb_spec u spender), (Z.eqb_spec u a), (Z.eqb_spec u to); subst; try congruence; lia.
Qed.
(** what is paid in: exactly the supplied and repaid amounts *)
Theorem C13_paid_in : forall br dr acc qs r, Forall plain qs ->
  (requests br dr acc qs).1.2 r =
    sumz (fun q => if (rq_addr q =? r) && ((rq_type q =? 0) || (rq_type q =? 2) || (rq_type q =? 5)) then rq_amt q else 0) qs.
Proof.
  intros br dr acc qs r. revert acc. induction qs as [|q qs IH]; intros acc Hpl; [done|]. apply Forall_cons in Hpl as [Hp Hpl].
  simpl. assert (exists a1 i o, request br dr acc q = (a1, i, o) /\ i = if (rq_type q =? 0) || (rq_type q =? 2) || (rq_type q =? 5) then rq_amt q else 0) as (a1 & i & o & E & ->).
  { unfold request, plain in *. 
    destruct (Z.eqb_spec (rq_type q) 0) as [->|]; [do 3 eexists; split; [reflexivity|done]|].
    destruct (Z.eqb_spec (rq_type q) 1) as [->|]; [destruct (_ <? _); do 3 eexists; (split; [reflexivity|done])|].
    destruct (Z.eqb_spec (rq_type q) 2) as [->|]; [do 3 eexists; split; [reflexivity|done]|].
    destruct (Z.eqb_spec (rq_type q) 3) as [->|]; [destruct (_ <? _); do 3 eexists; (split; [reflexivity|done])|].
    destruct (Z.eqb_spec (rq_type q) 4) as [->|]; [do 3 eexists; split; [reflexivity|done]|].
    assert (rq_type q = 5) as -> by lia. destruct (_ <? _); do 3 eexists; (split; [reflexivity|done]). }
  rewrite E. specialize (IH a1 Hpl). destruct (requests br dr a1 qs) as [[x y] z]. cbn [fst snd] in *. unfold upd. rewrite IH.
  rewrite Z.eqb_sym. destruct (rq_addr q =? r); simpl; lia.
Qed.

(** ** C06: no value extraction by rounding *)
Lemma request_value br dr acc q r : plain q -> 0 <= rq_amt q -> 0 < br r -> 0 < dr r ->
  0 <= supplied acc r -> 0 <= collateral acc r -> 0 <= owed acc r ->
  let '(acc', i, o) := request br dr acc q in
  0 <= supplied acc' r /\ 0 <= collateral acc' r /\ 0 <= owed acc' r /\
  1000000000 * (if r =? rq_addr q then o - i else 0) <=
    br r * ((supplied acc r - supplied acc' r) + (collateral acc r - collateral acc' r)) + dr r * (owed acc' r - owed acc r).
Proof.
  intros Hp Hn Hb Hd H1 H2 H3. unfold request, plain in *.
  assert (r <> rq_addr q -> forall f n, upd f (rq_addr q) n r = f r) as Hne.
  { intros H f n. unfold upd. destruct (Z.eqb_spec r (rq_addr q)); [done|lia]. }
  assert (forall f n, upd f r n r = f r + n) as Heq by (intros; unfold upd; by rewrite Z.eqb_refl).
  destruct (Z.eqb_spec r (rq_addr q)) as [He|Hr]; swap 1 2.
  { repeat match goal with |- context [if ?b then _ else _] => destruct b end; simpl; rewrite ?(Hne Hr); nia. }
  rewrite <- He. set (n := rq_amt q) in *. unfold down, up.
  pose proof (fdiv_spec (n * 1000000000) (br r) Hb) as F1. pose proof (cdiv_spec (n * 1000000000) (br r) Hb) as F2.
  pose proof (fdiv_spec (n * 1000000000) (dr r) Hd) as F3. pose proof (cdiv_spec (n * 1000000000) (dr r) Hd) as F4.
  assert (forall x, 1000000000 * (x / 1000000000) <= x) as F5 by (intros x; pose proof (fdiv_spec x 1000000000); lia).
  assert (forall x, x <= 1000000000 * cdiv x 1000000000) as F6 by (intros x; pose proof (cdiv_spec x 1000000000); lia).
  pose proof (Z.div_pos (n * 1000000000) (br r) ltac:(lia) ltac:(lia)).
  pose proof (Z.div_pos (n * 1000000000) (dr r) ltac:(lia) ltac:(lia)).
  pose proof (cdiv_nonneg (n * 1000000000) (br r) ltac:(lia) ltac:(lia)).
  pose proof (cdiv_nonneg (n * 1000000000) (dr r) ltac:(lia) ltac:(lia)).
  pose proof (F5 (supplied acc r * br r)). pose proof (F5 (collateral acc r * br r)). pose proof (F6 (owed acc r * dr r)).
  destruct (Z.eqb_spec (rq_type q) 0); [simpl; rewrite !Heq; nia|].
  destruct (Z.eqb_spec (rq_type q) 1).
  { destruct (Z.ltb_spec (supplied acc r) (cdiv (n * 1000000000) (br r))); simpl; rewrite !Heq; nia. }
  destruct (Z.eqb_spec (rq_type q) 2); [simpl; rewrite !Heq; nia|].
  destruct (Z.eqb_spec (rq_type q) 3).
  { destruct (Z.ltb_spec (collateral acc r) (cdiv (n * 1000000000) (br r))); simpl; rewrite !Heq; nia. }
  destruct (Z.eqb_spec (rq_type q) 4); [simpl; rewrite !Heq; nia|].
  destruct (Z.ltb_spec (owed acc r) (n * 1000000000 / dr r)); simpl; rewrite !Heq; nia.
Qed.
Lemma requests_value br dr r qs : 0 < br r -> 0 < dr r -> forall acc,
  Forall plain qs -> (forall q, q ∈ qs -> 0 <= rq_amt q) ->
  0 <= supplied acc r -> 0 <= collateral acc r -> 0 <= owed acc r ->
  let '(acc', i, o) := requests br dr acc qs in
  1000000000 * (o r - i r) <=
    br r * ((supplied acc r - supplied acc' r) + (collateral acc r - collateral acc' r)) + dr r * (owed acc' r - owed acc r).
Proof.
  intros Hb Hd. induction qs as [|q qs IH]; intros acc Hpl Hn H1 H2 H3; [simpl; nia|].
  apply Forall_cons in Hpl as [Hp Hpl]. simpl.
  pose proof (request_value br dr acc q r Hp (Hn q ltac:(left)) Hb Hd H1 H2 H3) as Hv.
  destruct (request br dr acc q) as [[a1 i1] o1]. destruct Hv as (P1 & P2 & P3 & Hv).
  specialize (IH a1 Hpl (fun q' H => Hn q' (elem_of_list_further _ _ _ H)) P1 P2 P3).
  destruct (requests br dr a1 qs) as [[a2 i2] o2]. unfold upd. destruct (r =? rq_addr q); nia.
Qed.

Lemma areqs_amt c self from s qs ls s' : areqs c self from s qs ls s' -> forall q, q ∈ qs -> 0 <= rq_amt q.
Proof. induction 1 as [|s q qs l1 s1 l2 s2 Hamt Hal Hq Hqs IH]; intros q' Hin; [by apply elem_of_nil in Hin|]. apply elem_of_cons in Hin as [->|Hin]; auto. Qed.

(** value of one reserve's part of an account at given rates, times 10^9 *)
Definition worth (w : World) (a r : Addr) (acc : Account) : Z :=
  b_rate_now w a r * (supplied acc r + collateral acc r) - d_rate_now w a r * owed acc r.

Lemma account_nonneg w a u r : reachable w ->
  0 <= supplied (account w a u) r /\ 0 <= collateral (account w a u) r /\ 0 <= owed (account w a u) r.
Proof.
  intros Hr. simpl. unfold sup_of, coll_of, liab_of, amount_at.
  assert (forall i m, m = po_liab (positions w a u) \/ m = po_coll (positions w a u) \/ m = po_sup (positions w a u) -> 0 <= default 0 (m !! i)) as Hi.
  { intros i m Hm. destruct (m !! i) as [v|] eqn:E; simpl; [|lia].
    destruct (C02_positions_positive w a u i v Hr) as [? _]; [|lia].
    destruct Hm as [-> | [-> | ->]]; tauto. }
  split; [|split]; apply Hi; tauto.
Qed.
Lemma rates_pos w a r d : reachable w -> reserve w a r = Some d -> 1000000000 <= b_rate_now w a r /\ 1000000000 <= d_rate_now w a r.
Proof.
  intros Hr Hd. pose proof (init_of_data _ _ _ _ Hr Hd) as G. destruct (proj2 (gd_dom _ G r) (ex_intro _ _ Hd)) as [cfg Hc].
  destruct (data_rates (w_now w) _ _ _ G Hc) as [? ?]. unfold b_rate_now, d_rate_now. vals. lia.
Qed.

Theorem C06_no_extraction : forall w sg a from spender to qs out w' r d,
  reachable w -> exec w (OPool sg a (PSubmit from spender to qs)) = Ok (out, w') -> Forall plain qs ->
  reserve w a r = Some d ->
  1000000000 * (held w r a - held w' r a) <= worth w a r (account w a from) - worth w a r (account w' a from).
Proof.
  intros w sg a from spender to qs out w' r d Hr H Hpl Hd.
  destruct (rates_pos _ _ _ _ Hr Hd) as [Hb Hd'].
  destruct (account_nonneg w a from r Hr) as (P1 & P2 & P3).
  pose proof (C13_plain_submit _ _ _ _ _ _ _ _ _ Hr H Hpl) as H13.
  apply submit_tx in H as (_ & _ & _ & _ & _ & _ & Hsa & Hta & _ & ls & x1 & ac & chk & t1 & t2 & pos & _ & _ & Hqs & _); [|done].
  pose proof (requests_value (b_rate_now w a) (d_rate_now w a) r qs ltac:(lia) ltac:(lia) (account w a from) Hpl (areqs_amt _ _ _ _ _ _ _ Hqs) P1 P2 P3) as Hv.
  destruct (requests _ _ _ qs) as [[acc ins] outs]. destruct H13 as [(A1 & A2 & A3) Hh].
  rewrite Hh. rewrite Z.eqb_refl. destruct (Z.eqb_spec a spender); [congruence|]. destruct (Z.eqb_spec a to); [congruence|].
  unfold worth. rewrite A1, A2, A3. nia.
Qed.

(** ** C07: withdraw and repay are capped exactly at the position *)
Theorem C07_withdraw : forall w sg a from spender to t r n out w',
  reachable w -> exec w (OPool sg a (PSubmit from spender to [mkReq t r n])) = Ok (out, w') ->
  t = 1 \/ t = 3 ->
  let pos_of w := if t =? 1 then po_sup (positions w a from) else po_coll (positions w a from) in
  let have := amount_at (pos_of w) (index_of w a r) in
  let value := have * b_rate_now w a r in
  (value < n * 1000000000 ->
     held w r a - held w' r a = value / 1000000000 /\ pos_of w' !! index_of w a r = None) /\
  (n * 1000000000 <= value ->
     held w r a - held w' r a = n /\ amount_at (pos_of w') (index_of w a r) = have - cdiv (n * 1000000000) (b_rate_now w a r)).
Proof.
  intros w sg a from spender to t r n out w' Hr H Ht. cbv zeta.
  pose proof (reachable_step _ _ _ _ Hr H) as Hr'.
  assert (Forall plain [mkReq t r n]) as Hpl by (repeat constructor; simpl; lia).
  pose proof (C13_plain_submit _ _ _ _ _ _ _ _ _ Hr H Hpl) as H13.
  apply submit_tx in H as (G & G' & Hcfg & _ & _ & _ & Hsa & Hta & _ & ls & x1 & ac & chk & t1 & t2 & pos & _ & _ & Hqs & _); [|done].
  assert (exists cfg, ps_rcfg (pool w a) !! r = Some cfg) as [cfg Hc].
  { inversion Hqs as [|? ? ? ? ? ? ? ? ? Hq Hqs']; subst. inversion Hq; subst; simpl in *; try lia. unfold touch in *; simpl in *; eauto. }
  destruct (proj1 (gd_dom _ G r) (ex_intro _ _ Hc)) as [d Hd].
  destruct (rates_pos w a r d Hr Hd) as [Hb _].
  assert (index_of w' a r = index_of w a r) as Hidx.
  { unfold index_of. destruct Hcfg as (_ & _ & _ & _ & _ & _ & Hrc & _). by rewrite Hrc. }
  simpl in H13. unfold request in H13. simpl rq_type in H13. simpl rq_addr in H13. simpl rq_amt in H13.
  set (br := b_rate_now w a) in *.
  pose proof (cdiv_spec (n * 1000000000) (br r) ltac:(lia)) as F.
  assert (forall m i, (forall v, m !! i = Some v -> 0 < v) -> amount_at m i = 0 -> m !! i = None) as Hnone.
  { intros m i Hv Hz. unfold amount_at in Hz. destruct (m !! i) as [v|]; [|done]. specialize (Hv v eq_refl). simpl in Hz. lia. }
  destruct Ht as [->| ->]; simpl in H13 |- *.
  - unfold up in H13. fold (amount_at (po_sup (positions w a from)) (index_of w a r)).
    change (sup_of w a from (index_of w a r)) with (amount_at (po_sup (positions w a from)) (index_of w a r)) in H13.
    set (have := amount_at _ _) in *.
    destruct (Z.ltb_spec have (cdiv (n * 1000000000) (br r))) as [Hlt|Hge]; destruct H13 as [(A1 & _) Hh];
      rewrite (Hh r a); simpl in A1; specialize (A1 r); unfold upd in *; simpl in *; rewrite !Z.eqb_refl in *; rewrite Hidx in A1;
      destruct (Z.eqb_spec a spender); [congruence| |congruence|]; (destruct (Z.eqb_spec a to); [congruence|]).
    + split; [|nia]. intros _. split; [lia|].
      apply Hnone; [intros v Hv; destruct (C02_positions_positive w' a from (index_of w a r) v Hr') as [? _]; [tauto|done]|]. change (sup_of w' a from (index_of w a r) = 0). rewrite A1. unfold sup_of. fold have. lia.
    + split; [nia|]. intros _. split; [lia|]. change (sup_of w' a from (index_of w a r) = have - cdiv (n * 1000000000) (br r)). rewrite A1. unfold sup_of. fold have. lia.
  - unfold up in H13.
    change (coll_of w a from (index_of w a r)) with (amount_at (po_coll (positions w a from)) (index_of w a r)) in H13.
    set (have := amount_at _ _) in *.
    destruct (Z.ltb_spec have (cdiv (n * 1000000000) (br r))) as [Hlt|Hge]; destruct H13 as [(_ & A1 & _) Hh];
      rewrite (Hh r a); simpl in A1; specialize (A1 r); unfold upd in *; simpl in *; rewrite !Z.eqb_refl in *; rewrite Hidx in A1;
      destruct (Z.eqb_spec a spender); [congruence| |congruence|]; (destruct (Z.eqb_spec a to); [congruence|]).
    + split; [|nia]. intros _. split; [lia|].
      apply Hnone; [intros v Hv; destruct (C02_positions_positive w' a from (index_of w a r) v Hr') as [? _]; [tauto|done]|]. change (coll_of w' a from (index_of w a r) = 0). rewrite A1. unfold coll_of. fold have. lia.
    + split; [nia|]. intros _. split; [lia|]. change (coll_of w' a from (index_of w a r) = have - cdiv (n * 1000000000) (br r)). rewrite A1. unfold coll_of. fold have. lia.
Qed.

Theorem C07_repay : forall w sg a from spender to r n out w',
  reachable w -> exec w (OPool sg a (PSubmit from spender to [mkReq 5 r n])) = Ok (out, w') ->
  let debt := amount_at (po_liab (positions w a from)) (index_of w a r) in
  let debt' := po_liab (positions w' a from) !! index_of w a r in
  let rate := d_rate_now w a r in
  (* the amount buys more dTokens than are owed: the excess is refunded and the entry removed *)
  (debt < n * 1000000000 / rate ->
     held w' r a - held w r a = cdiv (debt * rate) 1000000000 /\ debt' = None) /\
  (* otherwise all of it is taken, rounded against the payer by less than one dToken *)
  (n * 1000000000 / rate <= debt ->
     held w' r a - held w r a = n /\ default 0 debt' = debt - n * 1000000000 / rate /\
     n * 1000000000 < (n * 1000000000 / rate + 1) * rate).
Proof.
  intros w sg a from spender to r n out w' Hr H. cbv zeta.
  pose proof (reachable_step _ _ _ _ Hr H) as Hr'.
  assert (Forall plain [mkReq 5 r n]) as Hpl by (repeat constructor; simpl; lia).
  pose proof (C13_plain_submit _ _ _ _ _ _ _ _ _ Hr H Hpl) as H13.
  apply submit_tx in H as (G & G' & Hcfg & _ & _ & _ & Hsa & Hta & _ & ls & x1 & ac & chk & t1 & t2 & pos & _ & _ & Hqs & _); [|done].
  assert (exists cfg, ps_rcfg (pool w a) !! r = Some cfg) as [cfg Hc].
  { inversion Hqs as [|? ? ? ? ? ? ? ? ? Hq Hqs']; subst. inversion Hq; subst; simpl in *; try lia. unfold touch in *; simpl in *; eauto. }
  destruct (proj1 (gd_dom _ G r) (ex_intro _ _ Hc)) as [d Hd].
  destruct (rates_pos w a r d Hr Hd) as [_ Hb].
  assert (index_of w' a r = index_of w a r) as Hidx.
  { unfold index_of. destruct Hcfg as (_ & _ & _ & _ & _ & _ & Hrc & _). by rewrite Hrc. }
  simpl in H13. unfold request in H13. simpl in H13. unfold down in H13.
  change (liab_of w a from (index_of w a r)) with (amount_at (po_liab (positions w a from)) (index_of w a r)) in H13.
  set (dr := d_rate_now w a r) in *. set (debt := amount_at _ _) in *.
  pose proof (fdiv_spec (n * 1000000000) dr ltac:(lia)) as F.
  destruct (Z.ltb_spec debt (n * 1000000000 / dr)) as [Hlt|Hge]; destruct H13 as [(_ & _ & A1) Hh];
    rewrite (Hh r a); simpl in A1; specialize (A1 r); unfold upd in *; simpl in *; rewrite !Z.eqb_refl in *; rewrite Hidx in A1;
    change (liab_of w a from (index_of w a r)) with debt in A1; unfold liab_of, amount_at in A1;
    destruct (Z.eqb_spec a spender); [congruence| |congruence|]; (destruct (Z.eqb_spec a to); [congruence|]).
  - split; [|lia]. intros _. split; [lia|].
    destruct (po_liab (positions w' a from) !! index_of w a r) as [v|] eqn:Ev; [|done].
    destruct (C02_positions_positive w' a from (index_of w a r) v Hr') as [? _]; [tauto|]. simpl in A1. lia.
  - split; [lia|]. intros _. split; [lia|]. split; [lia|]. nia.
Qed.

(** in one ledger, a user's submits never return more than they put in: if at the
    end the account holds at least as many bTokens and owes at most as many dTokens
    as at the beginning, the pool has not paid anything out on balance *)
Definition own_plain_submit (a u : Addr) (o : Op) : Prop :=
  exists sg spender to qs, o = OPool sg a (PSubmit u spender to qs) /\ Forall plain qs.
Lemma submit_same_rates w sg a from spender to qs out w' r d : reachable w ->
  exec w (OPool sg a (PSubmit from spender to qs)) = Ok (out, w') -> reserve w a r = Some d ->
  w_now w' = w_now w /\ index_of w' a r = index_of w a r /\ (exists d', reserve w' a r = Some d') /\
  b_rate_now w' a r = b_rate_now w a r /\ d_rate_now w' a r = d_rate_now w a r.
Proof.
  intros Hr H Hd. pose proof (exec_opool _ _ _ _ _ _ H) as (_ & Hnow & _ & _).
  destruct (step_rates _ _ _ _ _ _ _ Hr H Hd) as (d' & Hd' & _).
  apply submit_tx in H as (G & G' & Hcfg & _ & _ & _ & Hsa & Hta & _ & ls & x1 & ac & chk & t1 & t2 & pos & _ & _ & Hqs & _); [|done].
  apply areqs_trace in Hqs. cbn [as_p] in Hqs. destruct (trace_data _ _ _ _ r Hqs) as [E1 E2].
  unfold b_rate_now, d_rate_now. rewrite Hnow. change (c_now (ctx w sg)) with (w_now w) in *. rewrite E1, E2.
  split; [done|]. split; [|split; [eauto|done]].
  unfold index_of. destruct Hcfg as (_ & _ & _ & _ & _ & _ & Hrc & _). by rewrite Hrc.
Qed.
Theorem C07_round_trip : forall w l a u r d,
  reachable w -> reserve w a r = Some d -> Forall (own_plain_submit a u) l ->
  let w' := run w l in
  supplied (account w a u) r + collateral (account w a u) r <= supplied (account w' a u) r + collateral (account w' a u) r ->
  owed (account w' a u) r <= owed (account w a u) r ->
  held w r a <= held w' r a.
Proof.
  intros w l a u r d Hr Hd Hl. cbv zeta. intros Hs Ho.
  assert (forall l w d, reachable w -> reserve w a r = Some d -> Forall (own_plain_submit a u) l ->
    b_rate_now (run w l) a r = b_rate_now w a r /\ d_rate_now (run w l) a r = d_rate_now w a r /\
    1000000000 * (held w r a - held (run w l) r a) <= worth w a r (account w a u) - worth w a r (account (run w l) a u)) as Hrun.
  { clear. induction l as [|o l IH]; intros w d Hr Hd Hl; [split; [done|split; [done|simpl; lia]]|].
    apply Forall_cons in Hl as [(sg & sp & to & qs & -> & Hpl) Hl]. simpl. unfold step.
    destruct (exec w (OPool sg a (PSubmit u sp to qs))) as [[out w1]|] eqn:E; [|by apply (IH w d)].
    pose proof (C06_no_extraction _ _ _ _ _ _ _ _ _ _ _ Hr E Hpl Hd) as H6.
    destruct (submit_same_rates _ _ _ _ _ _ _ _ _ _ _ Hr E Hd) as (_ & _ & (d1 & Hd1) & Hb1 & Hd1').
    destruct (IH w1 d1 (reachable_step _ _ _ _ Hr E) Hd1 Hl) as (B & D & I). rewrite B, D, Hb1, Hd1'. split; [done|]. split; [done|].
    unfold worth in *. rewrite Hb1, Hd1' in I. lia. }
  destruct (Hrun l w d Hr Hd Hl) as (_ & _ & H). destruct (rates_pos w a r d Hr Hd) as [? ?]. unfold worth in H.
  generalize dependent (account (run w l) a u). intros. nia.
Qed.
