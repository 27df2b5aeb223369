(** * The event log accounts for every position and auction of a pool (C83) *)
From Verif Require Import Base Types Token Emitter Factory Backstop PoolReserve PoolUser PoolHealth
  PoolAuction PoolSubmit PoolEmis PoolAdmin World Events Facts XMove Spec FrameFacts PoolFrame PoolCfg PoolAccrue PoolTrace PoolInv AuctionFacts
  PoolSim PoolReq PoolHF PoolOps PoolLiq PoolReach PropsPool1 PropsPool2 PropsPool3 PropsPool4 PoolTx PropsAdmin3 PropsEvents1.

(** ** Specification: the book an indexer keeps of one pool, from its events alone *)
Record Book := mkBook { bk_acc : Addr -> Account; bk_auct : Z -> Addr -> option Auction }.
Definition put_acc (b : Book) (u : Addr) (f : Account -> Account) : Book :=
  mkBook (fun v => if v =? u then f (bk_acc b v) else bk_acc b v) (bk_auct b).
Definition put_auct (b : Book) (t : Z) (u : Addr) (o : option Auction) : Book :=
  mkBook (bk_acc b) (fun t' u' => if (t' =? t) && (u' =? u) then o else bk_auct b t' u').
(** collateral and debt handed over in an auction *)
Definition gain (lot bid : gmap Addr Z) (acc : Account) : Account :=
  mkAccount (supplied acc) (fun r => collateral acc r + amount_at lot r) (fun r => owed acc r + amount_at bid r).
Definition lose (lot bid : gmap Addr Z) (acc : Account) : Account :=
  mkAccount (supplied acc) (fun r => collateral acc r - amount_at lot r) (fun r => owed acc r - amount_at bid r).
(** a fill of [pct] percent of an auction [age] ledgers old *)
Definition book_fill (bs : Addr) (b : Book) (t : Z) (u filler : Addr) (pct age : Z) (au : Auction) : Book :=
  let fl := filled au pct age in
  let b := if t =? 0 then put_acc (put_acc b u (lose (au_lot fl) (au_bid fl))) filler (gain (au_lot fl) (au_bid fl))
           else if t =? 1 then put_acc (put_acc b bs (lose ∅ (au_bid fl))) filler (gain ∅ (au_bid fl))
           else b in
  put_auct b t u (remainder au pct).
(** pool [a] with backstop [bs]; an event with the sequence number of its ledger *)
Definition book (a bs : Addr) (b : Book) (se : Z * Event) : Book :=
  match snd se with
  | VSupply p r u _ n => if p =? a then put_acc b u (fun acc => add_supplied acc r n) else b
  | VWithdraw p r u _ n => if p =? a then put_acc b u (fun acc => add_supplied acc r (- n)) else b
  | VSupplyColl p r u _ n => if p =? a then put_acc b u (fun acc => add_coll acc r n) else b
  | VWithdrawColl p r u _ n => if p =? a then put_acc b u (fun acc => add_coll acc r (- n)) else b
  | VBorrow p r u _ n => if p =? a then put_acc b u (fun acc => add_owed acc r n) else b
  | VRepay p r u _ n => if p =? a then put_acc b u (fun acc => add_owed acc r (- n)) else b
  | VBadDebt p u r n => if p =? a then
      let b := put_acc b u (fun acc => add_owed acc r (- n)) in
      if u =? bs then b else put_acc b bs (fun acc => add_owed acc r n)
      else b
  | VNewLiq p u au => if p =? a then put_auct b 0 u (Some au) else b
  | VNewAuction p t au => if p =? a then put_auct b t bs (Some au) else b
  | VDelete p u => if p =? a then put_auct b 0 u None else b
  | VFill p u t filler amt => if p =? a then
      match bk_auct b t u with Some au => book_fill bs b t u filler (amt mod 2 ^ 64) (fst se - au_block au) au | None => b end else b
  | _ => b
  end.
(** the book is right: every account is as in the pool, and every live auction is known as it is *)
Definition book_right (w : World) (a : Addr) (b : Book) : Prop :=
  (forall u, same_acc (account w a u) (bk_acc b u)) /\ (forall t u au, auction w a t u = Some au -> bk_auct b t u = Some au).
Definition empty_book : Book := mkBook (fun _ => mkAccount (fun _ => 0) (fun _ => 0) (fun _ => 0)) (fun _ _ => None).

(** ** Lemmas: one position change *)
Definition ixp (p : PoolSt) (r : Addr) : Z := match ps_rcfg p !! r with Some cfg => rc_index cfg | None => -1 end.
Lemma ixp_inj p r r' cfg : cfg_wf p -> ps_rcfg p !! r = Some cfg -> ixp p r' = rc_index cfg -> r' = r.
Proof.
  intros W Hr H. unfold ixp in H. assert (0 <= rc_index cfg) as H0.
  { pose proof (cw_list _ W _ _ Hr) as L. apply elem_of_list_lookup in L as [i Hl]. destruct (cw_idx _ W _ _ Hl) as (c & Hc & Hi). rewrite Hr in Hc. injection Hc as <-. lia. }
  destruct (ps_rcfg p !! r') as [cfg'|] eqn:Hr'; [|lia].
  pose proof (cw_list _ W _ _ Hr) as L. apply elem_of_list_lookup in L as [i Hi]. pose proof (cw_list _ W _ _ Hr') as L'. apply elem_of_list_lookup in L' as [j Hj].
  destruct (cw_idx _ W _ _ Hi) as (c & Hc & Ei). rewrite Hr in Hc. injection Hc as <-. destruct (cw_idx _ W _ _ Hj) as (c & Hc & Ej). rewrite Hr' in Hc. injection Hc as <-.
  assert (i = j) as <- by lia. congruence.
Qed.
Definition amt (p : PoolSt) (k : kind) (pos : Positions) (r : Addr) : Z := getz (get_k k pos) (ixp p r).
Definition bump (p : PoolSt) (k : kind) (f : Addr -> Z) (pos pos' : Positions) : Prop :=
  forall k' r, amt p k' pos' r = amt p k' pos r + (if decide (k' = k) then f r else 0).
Definition ch_ok (p : PoolSt) (ch : Cache) : Prop :=
  forall a r, ch_res ch !! a = Some r -> r_asset r = a /\ exists cfg, ps_rcfg p !! a = Some cfg /\ r_index r = rc_index cfg.
Lemma ch_ok_cfg p p' ch : ps_rcfg p' = ps_rcfg p -> ch_ok p ch -> ch_ok p' ch.
Proof. unfold ch_ok. by intros ->. Qed.
Lemma ch_ok_load now p ch a st r ch' : load_reserve now p ch a st = Ok (r, ch') -> ch_ok p ch ->
  ch_ok p ch' /\ r_asset r = a /\ exists cfg, ps_rcfg p !! a = Some cfg /\ r_index r = rc_index cfg.
Proof.
  intros H K. unfold load_reserve in H. cbv zeta in H. destruct (st && _); cbn [ch_res] in H.
  all: match type of H with context [ch_res ?c !! _] => change (ch_res c) with (ch_res ch) in H end.
  all: destruct (ch_res ch !! a) as [r0|] eqn:E; [apply Ok_inj in H; injection H as <- <-; split; [exact K|by apply K]|].
  all: apply bind_ok in H as (r1 & H1 & H); apply Ok_inj in H; injection H as <- <-; split; [exact K|].
  all: apply load_res_fields in H1 as (cfg & d & Hc & _ & Ha & Hi & _); split; [done|]; by exists cfg.
Qed.
Lemma ch_ok_cache p ch r cfg : ch_ok p ch -> ps_rcfg p !! r_asset r = Some cfg -> r_index r = rc_index cfg -> ch_ok p (cache_reserve ch r).
Proof.
  intros K Hc Hi a r' H. unfold cache_reserve in H. simpl in H. destruct (decide (a = r_asset r)) as [->|Hne].
  - rewrite lookup_insert in H. injection H as <-. split; [done|]. by exists cfg.
  - rewrite lookup_insert_ne in H by done. by apply K.
Qed.
Definition pos_sg (k : kind) (sg : Z) (f : Z -> PoolSt -> Addr -> Positions -> Reserve -> Z -> res (PoolSt * Positions * Reserve)) : Prop :=
  (sg = 1 /\ is_add k f) \/ (sg = -1 /\ is_rem k f).
Lemma getz_insert (m : gmap Z Z) i j v : getz (<[i := v]> m) j = if decide (j = i) then v else getz m j.
Proof. unfold getz. destruct (decide (j = i)) as [->|]; [by rewrite lookup_insert|by rewrite lookup_insert_ne]. Qed.
Lemma getz_put (m : gmap Z Z) i j v : getz (put m i v) j = if decide (j = i) then v else getz m j.
Proof.
  unfold put. destruct (Z.eqb_spec v 0) as [->|]; [|by rewrite getz_insert]. unfold getz. destruct (decide (j = i)) as [->|]; [by rewrite lookup_delete|by rewrite lookup_delete_ne].
Qed.
Lemma get_set_k k k' m pos : get_k k' (set_k k m pos) = if decide (k' = k) then m else get_k k' pos.
Proof. by destruct k, k'. Qed.
Lemma pos_bump k sg f now p u ch a st r ch1 pos n p' pos' r' : cfg_wf p -> ch_ok p ch -> pos_sg k sg f ->
  load_reserve now p ch a st = Ok (r, ch1) -> f now p u pos r n = Ok (p', pos', r') ->
  same_but_emis p p' /\ ch_ok p' (cache_reserve ch1 r') /\ bump p k (fun x => if x =? a then sg * n else 0) pos pos'.
Proof.
  intros W K Hf Hl H. apply ch_ok_load in Hl as (K1 & Ha & cfg & Hc & Hi); [|done].
  assert (same_but_emis p p') as S by (eapply pos_fun_emis; [|exact H]; destruct Hf as [[_ Hf]|[_ Hf]]; eauto).
  assert (r_asset r' = r_asset r /\ r_index r' = r_index r /\ exists nb, nb = getz (get_k k pos) (r_index r) + sg * n /\ forall k' j, getz (get_k k' pos') j = if decide (k' = k /\ j = r_index r) then nb else getz (get_k k' pos) j) as (Ra & Ri & nb & Hnb & Hpos).
  { destruct Hf as [[-> Hf]|[-> Hf]].
    - apply (add_changed k) in H as (_ & (_ & _ & _ & ->) & ->); [|done]. split; [done|]. split; [done|]. eexists. split; [by rewrite Z.mul_1_l|]. intros k' j. rewrite get_set_k. destruct (decide (k' = k)) as [->|Hk]; [|by rewrite decide_False by (by intros [? _])].
      rewrite getz_insert. destruct (decide (j = r_index r)) as [->|]; [by rewrite decide_True|by rewrite decide_False by (by intros [_ ?])].
    - apply (rem_changed k) in H as (_ & (_ & _ & _ & ->) & H0 & ->); [|done]. split; [done|]. split; [done|]. eexists. split; [done|]. intros k' j. rewrite get_set_k. destruct (decide (k' = k)) as [->|Hk]; [|by rewrite decide_False by (by intros [? _])].
      rewrite getz_put. destruct (decide (j = r_index r)) as [->|]; [rewrite decide_True by done; lia|by rewrite decide_False by (by intros [_ ?])]. }
  split; [done|]. split.
  - eapply ch_ok_cache; [eapply ch_ok_cfg; [|exact K1]; by apply emis_ecfg in S as (? & _)| |by rewrite Ri]. apply emis_ecfg in S as (-> & _). rewrite Ra, Ha. exact Hc.
  - intros k' x. unfold amt. rewrite Hpos, Hnb. destruct (decide (k' = k)) as [->|Hk]; [|rewrite decide_False by (by intros [? _]); lia].
    destruct (Z.eqb_spec x a) as [->|Hx].
    + unfold ixp. rewrite Hc, Hi. rewrite decide_True by done. lia.
    + rewrite decide_False; [lia|]. intros [_ E]. rewrite Hi in E. by eapply ixp_inj in E.
Qed.

(** ** Lists of position changes *)
Lemma bump_trans p k f g pos pos1 pos2 : bump p k f pos pos1 -> bump p k g pos1 pos2 -> bump p k (fun r => f r + g r) pos pos2.
Proof. intros H1 H2 k' r. rewrite H2, H1. destruct (decide (k' = k)); lia. Qed.
Lemma amt_same p p' k pos r : ps_rcfg p' = ps_rcfg p -> amt p' k pos r = amt p k pos r.
Proof. intros H. unfold amt, ixp. by rewrite H. Qed.
Lemma bump_same p p' k f pos pos' : ps_rcfg p' = ps_rcfg p -> bump p' k f pos pos' -> bump p k f pos pos'.
Proof. intros H B k' r. specialize (B k' r). by rewrite !(amt_same p p') in B. Qed.
Lemma emis_rcfg p p' : same_but_emis p p' -> ps_rcfg p' = ps_rcfg p.
Proof. intros S. by apply emis_ecfg in S as (? & _). Qed.
Definition Wf (p : PoolSt) : Prop := cfg_wf p /\ ps_init p = true.
Lemma Wf_cfg p p' : Wf p -> same_cfg p p' -> Wf p'.
Proof. intros [W I] S. split; [by eapply wf_same_cfg|]. destruct S as (-> & _). done. Qed.
Lemma steps_bump k sg f now u l : pos_sg k sg f -> forall p ch pos p' ch' pos', Wf p -> ch_ok p ch -> foldM (pos_step f now u) (p, ch, pos) l = Ok (p', ch', pos') ->
  same_but_emis p p' /\ ch_ok p' ch' /\ bump p k (fun x => sumz (fun e => if decide (e.1 = x) then sg * e.2 else 0) l) pos pos'.
Proof.
  intros Hf. induction l as [|e l IH]; intros p ch pos p' ch' pos' W K H; cbn [foldM] in H.
  - apply Ok_inj in H. injection H as <- <- <-. split; [apply emis_refl|]. split; [done|]. intros k' x. simpl. destruct (decide _); lia.
  - apply bind_ok in H as ([[p1 ch1] pos1] & H1 & H). unfold pos_step in H1. apply bind_ok in H1 as ([r ch0] & Hl & H1). apply bind_ok in H1 as ([[p2 pos2] r2] & H2 & H1). apply Ok_inj in H1. injection H1 as <- <- <-.
    destruct (pos_bump _ _ _ _ _ _ _ _ _ _ _ _ _ _ _ _ (proj1 W) K Hf Hl H2) as (S1 & K1 & B1).
    destruct (IH p2 (cache_reserve ch0 r2) pos2 p' ch' pos') as (S2 & K2 & B2); [eapply Wf_cfg; [done|by apply emis_cfg]|done|done|].
    split; [by eapply emis_trans|]. split; [done|]. intros k' x. apply (bump_same p) in B2; [|by apply emis_rcfg]. rewrite (bump_trans _ _ _ _ _ _ _ B1 B2). destruct (decide (k' = k)); [|done]. simpl. destruct (Z.eqb_spec x (e.1)) as [->|]; destruct (decide _); try done; lia.
Qed.

Lemma sum_entries' (m : gmap Addr Z) sg x : sumz (fun e => if decide (e.1 = x) then sg * e.2 else 0) (entries m) = sg * getz m x.
Proof. rewrite (sum_entries m x (fun v => sg * v)). unfold getz. destruct (m !! x); simpl; lia. Qed.
(** both lists of [rm_positions] or [add_positions] *)
Definition shift (p : PoolSt) (sg : Z) (lot bid : gmap Addr Z) (pos pos' : Positions) : Prop :=
  forall k r, amt p k pos' r = amt p k pos r + sg * match k with KSup => 0 | KColl => getz lot r | KLiab => getz bid r end.
Lemma two_bumps now u sg f g p ch pos lot bid p' ch' pos' : pos_sg KColl sg f -> pos_sg KLiab sg g -> Wf p -> ch_ok p ch ->
  (let? s := foldM (pos_step f now u) (p, ch, pos) (entries lot) in foldM (pos_step g now u) s (entries bid)) = Ok (p', ch', pos') ->
  same_but_emis p p' /\ ch_ok p' ch' /\ shift p sg lot bid pos pos'.
Proof.
  intros Hf Hg W K H. apply bind_ok in H as ([[p1 ch1] pos1] & H1 & H). destruct (steps_bump _ _ _ _ _ _ Hf _ _ _ _ _ _ W K H1) as (S1 & K1 & B1).
  destruct (steps_bump _ _ _ _ _ _ Hg _ _ _ _ _ _ (Wf_cfg _ _ W (emis_cfg _ _ S1)) K1 H) as (S2 & K2 & B2). split; [by eapply emis_trans|]. split; [done|].
  apply (bump_same p) in B2; [|by apply emis_rcfg]. intros k r. rewrite B2, B1, !sum_entries'. destruct k; simpl; lia.
Qed.
Lemma rm_shift now u p ch pos lot bid p' ch' pos' : Wf p -> ch_ok p ch -> rm_positions now u (p, ch, pos) lot bid = Ok (p', ch', pos') ->
  same_but_emis p p' /\ ch_ok p' ch' /\ shift p (-1) lot bid pos pos'.
Proof. intros W K H. eapply two_bumps; [| |done|done|exact H]; right; done. Qed.
Lemma add_shift now u p ch pos lot bid p' ch' pos' : Wf p -> ch_ok p ch -> add_positions now u (p, ch, pos) lot bid = Ok (p', ch', pos') ->
  same_but_emis p p' /\ ch_ok p' ch' /\ shift p 1 lot bid pos pos'.
Proof. intros W K H. eapply two_bumps; [| |done|done|exact H]; left; done. Qed.
Lemma shift_same p p' sg lot bid pos pos' : ps_rcfg p' = ps_rcfg p -> shift p' sg lot bid pos pos' -> shift p sg lot bid pos pos'.
Proof. intros H B k' r. specialize (B k' r). by rewrite !(amt_same p p') in B. Qed.

(** ** The book and the state of a submit *)
Definition vw (from : Addr) (p : PoolSt) (pos : Positions) (u : Addr) : Positions := if u =? from then pos else get_pos p u.
Definition tells (from : Addr) (p : PoolSt) (pos : Positions) (b : Book) : Prop :=
  (forall u k r, acc_k k (bk_acc b u) r = amt p k (vw from p pos u) r) /\ (forall t u au, ps_auct p !! (t, u) = Some au -> bk_auct b t u = Some au).
Lemma book_other a bs seq e b : (match e with VSupply _ _ _ _ _ | VWithdraw _ _ _ _ _ | VSupplyColl _ _ _ _ _ | VWithdrawColl _ _ _ _ _ | VBorrow _ _ _ _ _ | VRepay _ _ _ _ _ | VFill _ _ _ _ _ | VDelete _ _ | VBadDebt _ _ _ _ | VNewLiq _ _ _ | VNewAuction _ _ _ => False | _ => True end) -> book a bs b (seq, e) = b.
Proof. by destruct e. Qed.
Lemma tells_plain now from s s' a k sg f n b : plain_step now from s s' a f n -> pos_sg k sg f -> Wf (lo_p s) -> ch_ok (lo_p s) (lo_ch s) -> tells from (lo_p s) (lo_pos s) b ->
  tells from (lo_p s') (lo_pos s') (put_acc b from (fun acc => match k with KSup => add_supplied acc a (sg * n) | KColl => add_coll acc a (sg * n) | KLiab => add_owed acc a (sg * n) end)) /\
  same_but_emis (lo_p s) (lo_p s') /\ ch_ok (lo_p s') (lo_ch s').
Proof.
  intros (r & ch & r1 & Hl & Hf & _ & Hch) Hk W K [T1 T2]. destruct (pos_bump _ _ _ _ _ _ _ _ _ _ _ _ _ _ _ _ (proj1 W) K Hk Hl Hf) as (S & K1 & B). rewrite Hch. split; [|by split].
  split; [|intros t u au; rewrite (emis_auct _ _ S); apply T2].
  intros u k' x. rewrite (amt_same (lo_p s)) by (by apply emis_rcfg). cbn [put_acc bk_acc]. unfold vw. destruct (Z.eqb_spec u from) as [->|Hne].
  - rewrite B. specialize (T1 from). unfold vw in T1. rewrite Z.eqb_refl in T1. rewrite <- T1. destruct k, k'; cbn [acc_k add_supplied add_coll add_owed supplied collateral owed]; unfold upd; simpl; lia.
  - specialize (T1 u). unfold vw in T1. rewrite (proj2 (Z.eqb_neq _ _) Hne) in T1. rewrite T1. unfold amt, get_pos. by rewrite (emis_pos _ _ S).
Qed.

(** ** Fills *)
Lemma tells_two from p pos b p3 v vpos pos' b' (dv df : kind -> Addr -> Z) : tells from p pos b -> ps_rcfg p3 = ps_rcfg p ->
  (forall u, get_pos p3 u = if decide (u = v) then vpos else get_pos p u) -> v <> from ->
  (forall k r, amt p k vpos r = amt p k (get_pos p v) r + dv k r) -> (forall k r, amt p k pos' r = amt p k pos r + df k r) ->
  (forall u k r, acc_k k (bk_acc b' u) r = acc_k k (bk_acc b u) r + (if u =? v then dv k r else if u =? from then df k r else 0)) ->
  (forall t u au, ps_auct p3 !! (t, u) = Some au -> bk_auct b' t u = Some au) -> tells from p3 pos' b'.
Proof.
  intros [T1 _] Hc Hp Hv Hdv Hdf Hb Ha. split; [|exact Ha]. intros u k r. rewrite Hb, T1, (amt_same p p3) by done. unfold vw. rewrite Hp.
  destruct (Z.eqb_spec u v) as [->|Hne]; [rewrite (proj2 (Z.eqb_neq v from) Hv), decide_True by done; by rewrite Hdv|]. rewrite decide_False by done. destruct (Z.eqb_spec u from) as [->|Hnf]; [by rewrite Hdf|lia].
Qed.
Lemma tells_auct p3 p b b' t u (rem : option Auction) : (forall t u au, ps_auct p !! (t, u) = Some au -> bk_auct b t u = Some au) ->
  ps_auct p3 = (match rem with Some a => <[(t, u) := a]> (ps_auct p) | None => delete (t, u) (ps_auct p) end) -> bk_auct b' = bk_auct (put_auct b t u rem) ->
  forall t' u' au, ps_auct p3 !! (t', u') = Some au -> bk_auct b' t' u' = Some au.
Proof.
  intros H E Eb t' u' au Ha. rewrite Eb. cbn [put_auct bk_auct]. rewrite E in Ha. destruct (decide ((t', u') = (t, u))) as [[= -> ->]|Hne].
  - rewrite !Z.eqb_refl. cbn [andb]. destruct rem; [by rewrite lookup_insert in Ha|by rewrite lookup_delete in Ha].
  - destruct (Z.eqb_spec t' t) as [->|]; [destruct (Z.eqb_spec u' u) as [->|]; [done|]|]; cbn [andb]; apply H; (destruct rem; [by rewrite lookup_insert_ne in Ha by (intros [=]; congruence)|by rewrite lookup_delete_ne in Ha by (intros [=]; congruence)]).
Qed.
Definition at_ix (l : list Addr) (i : Z) (r : Addr) : bool := match list_get l i with Ok x => x =? r | Err _ => false end.
Definition dsum (l : list Addr) (r : Addr) (liab : list (Z * Z)) : Z := sumz (fun e => if at_ix l e.1 r then e.2 else 0) liab.
Lemma debts_book self u l seq : forall liab a es, foldM (fun es e => let? r := list_get l (fst e) in Ok (es ++ [VBadDebt self u r (snd e)])) a liab = Ok es ->
  exists es', es = a ++ es' /\ forall b,
  bk_auct (fold_left (book self u) (map (pair seq) es') b) = bk_auct b /\
  forall v k r, acc_k k (bk_acc (fold_left (book self u) (map (pair seq) es') b) v) r =
    acc_k k (bk_acc b v) r - (if decide (v = u /\ k = KLiab) then dsum l r liab else 0).
Proof.
  induction liab as [|e liab IH]; intros a es H; cbn [foldM] in H.
  - apply Ok_inj in H as <-. exists []. rewrite app_nil_r. split; [done|]. intros b. split; [done|]. intros. unfold dsum. simpl. destruct (decide _); lia.
  - apply bind_ok in H as (a1 & H1 & H). apply bind_ok in H1 as (r & Hr & H1). apply Ok_inj in H1 as <-.
    edestruct IH as (es' & -> & HI); [exact H|]. exists (VBadDebt self u r e.2 :: es'). split; [by rewrite <- app_assoc|]. intros b.
    cbn [map fold_left]. assert (book self u b (seq, VBadDebt self u r e.2) = put_acc b u (fun acc => add_owed acc r (- e.2))) as E by (unfold book; cbn [snd]; by rewrite !Z.eqb_refl).
    rewrite E. destruct (HI (put_acc b u (fun acc => add_owed acc r (- e.2)))) as [Ha Hb]. split; [by rewrite Ha|]. intros v k x. rewrite Hb. unfold dsum. rewrite sumz_cons. unfold at_ix at 2. rewrite Hr.
    cbn [put_acc bk_acc]. destruct (Z.eqb_spec v u) as [->|Hne].
    + destruct k; cbn [acc_k add_owed supplied collateral owed]; try (rewrite !decide_False by (by intros [_ ?]); lia). rewrite !decide_True by done. unfold upd. rewrite (Z.eqb_sym r x). destruct (x =? r); lia.
    + rewrite !decide_False by (by intros [? _]). lia.
Qed.
Lemma list_get_inj l i j r : NoDup l -> list_get l i = Ok r -> list_get l j = Ok r -> i = j.
Proof.
  unfold list_get. intros N Hi Hj. destruct (i <? 0) eqn:Ei; [done|]. destruct (j <? 0) eqn:Ej; [done|]. unfold unwrap in Hi, Hj. destruct (l !! Z.to_nat i) eqn:Li; [|done]. destruct (l !! Z.to_nat j) eqn:Lj; [|done]. injection Hi as ->. injection Hj as ->. pose proof (NoDup_lookup _ _ _ _ N Li Lj). lia.
Qed.
Lemma burn_dsum l : NoDup l -> forall en m0 m, NoDup en.*1 -> foldM (fun m e => let? a := list_get l (fst e) in Ok (<[a := snd e]> m)) m0 en = Ok m ->
  (forall e r, e ∈ en -> list_get l e.1 = Ok r -> m0 !! r = None) -> forall r, getz m r = getz m0 r + dsum l r en.
Proof.
  intros N. induction en as [|e en IH]; intros m0 m Hn H H0 r; cbn [foldM] in H; [apply Ok_inj in H as <-; unfold dsum; simpl; lia|].
  apply bind_ok in H as (m1 & H1 & H). apply bind_ok in H1 as (a & Ha & H1). apply Ok_inj in H1 as <-. cbn [fmap list_fmap] in Hn. apply NoDup_cons in Hn as [He Hn].
  rewrite (IH _ _ Hn H).
  - unfold dsum. rewrite sumz_cons. unfold at_ix at 2. rewrite Ha. rewrite getz_insert. destruct (Z.eqb_spec a r) as [->|Hne].
    + rewrite decide_True by done. unfold getz. rewrite (H0 e r) by (done || by left). simpl. lia.
    + rewrite decide_False by done. lia.
  - intros e' r' He' Hr'. rewrite lookup_insert_ne; [by apply (H0 e'); [right|]|]. intros ->. pose proof (list_get_inj _ _ _ _ N Ha Hr') as E. apply He. rewrite E. apply elem_of_list_fmap. by exists e'.
Qed.
Lemma burn_map_dsum l liab m r : NoDup l -> burn_map l liab = Ok m -> getz m r = dsum l r (entries liab).
Proof.
  intros N H. rewrite (burn_dsum l N _ ∅ m (entries_fst_NoDup liab) H); [unfold getz; rewrite lookup_empty; simpl; lia|]. intros. apply lookup_empty.
Qed.
Lemma getz_empty r : getz ∅ r = 0.
Proof. unfold getz. by rewrite lookup_empty. Qed.
Lemma book_fill_acc bs b t v0 from pct age au v k r : v0 <> from -> (t = 1 -> bs <> from) -> (t = 0 \/ t = 1 \/ t = 2) ->
  acc_k k (bk_acc (book_fill bs b t v0 from pct age au) v) r = acc_k k (bk_acc b v) r +
    (let fl := filled au pct age in let d := match k with KSup => 0 | KColl => if t =? 0 then getz (au_lot fl) r else 0 | KLiab => if t =? 2 then 0 else getz (au_bid fl) r end in
     if v =? (if t =? 0 then v0 else bs) then - d else if v =? from then d else 0).
Proof.
  intros H1 H2 Ht. unfold book_fill. cbv zeta. cbn [put_auct bk_acc]. set (fl := filled au pct age). destruct Ht as [->|[->| ->]]; cbn [Z.eqb Pos.eqb]; cbn [put_acc bk_acc].
  - destruct (Z.eqb_spec v from) as [->|Hf]; [rewrite (proj2 (Z.eqb_neq from v0)) by done|destruct (v =? v0)]; destruct k; cbn [acc_k gain lose supplied collateral owed]; unfold amount_at, getz; lia.
  - destruct (Z.eqb_spec v from) as [->|Hf]; [rewrite (proj2 (Z.eqb_neq from bs)) by (intros E; by apply H2)|destruct (v =? bs)]; destruct k; cbn [acc_k gain lose supplied collateral owed]; unfold amount_at, getz; rewrite ?lookup_empty; simpl; lia.
  - destruct k; destruct (v =? bs); destruct (v =? from); lia.
Qed.
Lemma book_fill_auct bs b t u from pct age au : bk_auct (book_fill bs b t u from pct age au) = bk_auct (put_auct b t u (remainder au pct)).
Proof. unfold book_fill. cbv zeta. destruct (t =? 0); [done|]. by destruct (t =? 1). Qed.
Lemma get_pos_set p u pos v : get_pos (set_pos p u pos) v = if decide (v = u) then pos else get_pos p v.
Proof. apply get_pos_set_ps. Qed.
Lemma get_pos_same p p' u : ps_pos p' = ps_pos p -> get_pos p' u = get_pos p u.
Proof. unfold get_pos. by intros ->. Qed.
Lemma set_pos_cfg p u pos : same_cfg p (set_pos p u pos).
Proof. done. Qed.
Lemma auct_upd p t u (rem : option Auction) : let p' := match rem with Some a => set_auction p t u a | None => del_auction p t u end in
  same_cfg p p' /\ ps_pos p' = ps_pos p /\ ps_auct p' = match rem with Some a => <[(t, u) := a]> (ps_auct p) | None => delete (t, u) (ps_auct p) end.
Proof. by destruct rem. Qed.
(** what a submit keeps of the pool between two requests *)
Definition kept_in (p p' : PoolSt) (ch' : Cache) : Prop := same_cfg p p' /\ ch_ok p' ch'.

Lemma fill_tells c self from s q s' t chk b : do_fill c self from t chk s q = Ok s' -> t = 0 \/ t = 1 \/ t = 2 -> Wf (lo_p s) -> ch_ok (lo_p s) (lo_ch s) ->
  tells from (lo_p s) (lo_pos s) b ->
  exists es, request_ev c self from s (mkReq (6 + t) (rq_addr q) (rq_amt q)) = Ok es /\
    tells from (lo_p s') (lo_pos s') (fold_left (book self (ps_backstop (lo_p s))) (map (pair (c_seq c)) es) b) /\ kept_in (lo_p s) (lo_p s') (lo_ch s').
Proof.
  unfold do_fill. intros H Ht W K T. apply bind_ok in H as ([[[p ch] pos] x] & Hf & H). apply Ok_inj in H as <-. cbn [lo_p lo_pos lo_ch].
  unfold fill in Hf. apply assert_ok in Hf as [Hne Hf]. apply negb_true_iff, Z.eqb_neq in Hne. apply bind_ok in Hf as (au & Hau & Hf). apply bind_ok in Hf as ([tf rem] & Hsc & Hf).
  apply bind_ok in Hf as ([[[p1 ch1] pos1] x1] & Hk & Hf). cbv zeta in Hf.
  assert (p = match rem with Some a => set_auction p1 t (rq_addr q) a | None => del_auction p1 t (rq_addr q) end /\ ch = ch1 /\ pos = pos1) as (-> & -> & ->) by (apply Ok_inj in Hf; by injection Hf as <- <- <- _). clear Hf.
  apply scale_filled in Hsc as Hsp; [|unfold as_u64; apply Z.mod_pos_bound; lia]. destruct Hsp as (_ & _ & Htf & Hrem). unfold as_u64 in Htf, Hrem.
  assert (ps_auct (lo_p s) !! (t, rq_addr q) = Some au) as Hau' by (unfold unwrap in Hau; destruct (ps_auct (lo_p s) !! _); [by injection Hau as ->|done]).
  set (bs := ps_backstop (lo_p s)).
  set (b1 := fun b0 => book_fill bs b0 t (rq_addr q) from (rq_amt q mod 2 ^ 64) (c_seq c - au_block au) au).
  assert (forall b0, bk_auct b0 = bk_auct b -> book self bs b0 (c_seq c, VFill self (rq_addr q) t from (rq_amt q)) = b1 b0) as Hb1.
  { intros b0 Hb0. unfold book. cbn [snd fst]. rewrite Z.eqb_refl, Hb0. destruct T as [_ T]. by rewrite (T _ _ _ Hau'). }
  destruct (auct_upd p1 t (rq_addr q) rem) as (C3 & P3 & A3). set (p3 := match rem with Some a => set_auction p1 t (rq_addr q) a | None => del_auction p1 t (rq_addr q) end) in *.
  (* what remains: the state before the auction is updated *)
  assert (forall es, (forall b0, bk_auct (fold_left (book self bs) (map (pair (c_seq c)) es) b0) = bk_auct b0) -> same_cfg (lo_p s) p1 -> ch_ok p1 ch1 -> ps_auct p1 = ps_auct (lo_p s) ->
    tells from p1 pos1 (mkBook (bk_acc (b1 (fold_left (book self bs) (map (pair (c_seq c)) es) b))) (bk_auct b)) ->
    tells from p3 pos1 (fold_left (book self bs) (map (pair (c_seq c)) (es ++ [VFill self (rq_addr q) t from (rq_amt q)])) b) /\ kept_in (lo_p s) p3 ch1) as Fin.
  { intros es He C1 K1 A1 [T1 T2]. assert (ps_rcfg p3 = ps_rcfg p1) as R3 by (by destruct C3 as (_ & _ & _ & _ & _ & _ & ? & _)).
    split; [|split; [by eapply cfg_trans|by eapply ch_ok_cfg]]. rewrite map_app, fold_left_app. cbn [map fold_left]. rewrite Hb1 by apply He. split.
    - intros u k r. rewrite (amt_same p1) by done. cbn [bk_acc] in T1. rewrite T1. unfold vw. destruct (u =? from); [done|]. by rewrite (get_pos_same _ _ _ P3).
    - destruct T as [_ T]. apply (tells_auct p3 (lo_p s) (fold_left (book self bs) (map (pair (c_seq c)) es) b) _ t (rq_addr q) rem); [intros t' u' au' Hx; rewrite He; by apply T|rewrite A3, A1; by destruct rem|]. unfold b1. rewrite book_fill_auct, Hrem. done. }
  clear A3 P3 C3. clearbody p3.
  destruct Ht as [->|[->| ->]]; cbn [Z.eqb Pos.eqb] in Hk; unfold request_ev; cbn [rq_type rq_addr rq_amt Z.add Pos.add Pos.succ]; cbv zeta.
  - apply bind_ok in Hk as (s1 & Hk & Hx). apply Ok_inj in Hx. injection Hx as -> _. eexists. split; [done|].
    unfold fill_user_liq in Hk. apply bind_ok in Hk as ([[p4 ch4] upos] & Hr & Hk). apply bind_ok in Hk as ([[p5 ch5] fpos] & Ha & Hk). apply Ok_inj in Hk. injection Hk as <- <- <-.
    destruct (rm_shift _ _ _ _ _ _ _ _ _ _ W K Hr) as (S4 & K4 & B4). destruct (add_shift _ _ _ _ _ _ _ _ _ _ (Wf_cfg _ _ W (emis_cfg _ _ S4)) K4 Ha) as (S5 & K5 & B5). apply (shift_same (lo_p s)) in B5; [|by apply emis_rcfg].
    pose proof (emis_trans _ _ _ S4 S5) as S.
    apply (Fin []); [done|by apply (cfg_trans _ p5); [apply emis_cfg|]|by eapply ch_ok_cfg; [|exact K5]|by rewrite <- (emis_auct _ _ S)|].
    eapply (tells_two from (lo_p s) (lo_pos s) b _ (rq_addr q) upos _ _ (fun k r => -1 * match k with KSup => 0 | KColl => getz (au_lot tf) r | KLiab => getz (au_bid tf) r end) (fun k r => 1 * match k with KSup => 0 | KColl => getz (au_lot tf) r | KLiab => getz (au_bid tf) r end));
      [exact T|by apply (emis_rcfg _ _ S)| |done|exact B4|exact B5| |].
    + intros u. rewrite get_pos_set. destruct (decide _); [done|]. apply get_pos_same. by apply emis_pos.
    + intros u k r. cbn [bk_acc map fold_left]. unfold b1. rewrite book_fill_acc; [|done|done|by left]. cbv zeta. cbn [Z.eqb]. rewrite <- Htf. destruct (u =? rq_addr q); [|destruct (u =? from); [|done]]; destruct k; lia.
    + cbn [bk_auct]. intros t' u' au' Hx. apply T. change (ps_auct (set_pos p5 (rq_addr q) upos)) with (ps_auct p5) in Hx. by rewrite <- (emis_auct _ _ S).
  - cbv beta iota in Hk. unfold fill_bad_debt in Hk. cbv zeta in Hk. fold bs in Hk. apply assert_ok in Hk as [Hfb Hk]. apply negb_true_iff, Z.eqb_neq in Hfb. unfold fill_bad_debt_ev. cbv zeta. fold bs. rewrite Hau. cbn [bind]. rewrite Hsc. cbn [bind].
    apply bind_ok in Hk as ([[p2 ch2] bpos] & Hr & Hk). rewrite Hr. cbn [bind]. apply bind_ok in Hk as ([[p4 ch4] fpos] & Ha & Hk). rewrite Ha. cbn [bind].
    apply bind_ok in Hk as (btok & -> & Hk). cbn [bind]. apply bind_ok in Hk as (lot & -> & Hk). cbn [bind]. apply bind_ok in Hk as (x2 & Hd & Hk). rewrite Hd. cbn [bind].
    destruct (rm_shift _ _ _ _ _ _ _ _ _ _ W K Hr) as (S2 & K2 & B2). destruct (add_shift _ _ _ _ _ _ _ _ _ _ (Wf_cfg _ _ W (emis_cfg _ _ S2)) K2 Ha) as (S4 & K4 & B4). apply (shift_same (lo_p s)) in B4; [|by apply emis_rcfg].
    pose proof (emis_trans _ _ _ S2 S4) as S.
    assert (forall p5 ch5 bpos5 (m : gmap Addr Z) es, p1 = set_pos p5 bs bpos5 -> ch1 = ch5 -> pos1 = fpos -> same_but_emis p4 p5 -> ch_ok p5 ch5 -> shift (lo_p s) (-1) ∅ m bpos bpos5 ->
      (forall b0, bk_auct (fold_left (book self bs) (map (pair (c_seq c)) es) b0) = bk_auct b0 /\ forall v k r, acc_k k (bk_acc (fold_left (book self bs) (map (pair (c_seq c)) es) b0) v) r = acc_k k (bk_acc b0 v) r - (if decide (v = bs /\ k = KLiab) then getz m r else 0)) ->
      tells from p3 pos1 (fold_left (book self bs) (map (pair (c_seq c)) (VBDraw self from lot :: es ++ [VFill self (rq_addr q) 1 from (rq_amt q)])) b) /\ kept_in (lo_p s) p3 ch1) as Fin1.
    { intros p5 ch5 bpos5 m es -> -> -> S5 K5 B5 He. pose proof (emis_trans _ _ _ S S5) as S'. apply (Fin (VBDraw self from lot :: es)); [intros b0; apply He|by apply (cfg_trans _ p5); [apply emis_cfg|]|by eapply ch_ok_cfg; [|exact K5]|by rewrite <- (emis_auct _ _ S')|].
      eapply (tells_two from (lo_p s) (lo_pos s) b _ bs bpos5 _ _ (fun k r => match k with KLiab => - (getz (au_bid tf) r + getz m r) | _ => 0 end) (fun k r => match k with KLiab => getz (au_bid tf) r | _ => 0 end));
        [exact T|by apply (emis_rcfg _ _ S')| |congruence| | | |].
      + intros u. rewrite get_pos_set. destruct (decide _); [done|]. apply get_pos_same. by apply emis_pos.
      + intros k r. rewrite B5, B2. destruct k; rewrite ?getz_empty; lia.
      + intros k r. rewrite B4. destruct k; rewrite ?getz_empty; lia.
      + intros u k r. cbn [bk_acc]. unfold b1. rewrite book_fill_acc; [|done|congruence|by right; left]. cbv zeta. cbn [Z.eqb Pos.eqb]. rewrite <- Htf. cbn [map fold_left]. change (book self bs b (c_seq c, VBDraw self from lot)) with b. rewrite (proj2 (He b)).
        destruct (Z.eqb_spec u bs) as [->|Hub]; [|rewrite decide_False by (by intros [? _]); destruct (u =? from); destruct k; lia].
        destruct k; [rewrite decide_True by done|rewrite decide_False by (by intros [_ ?])..]; lia.
      + cbn [bk_auct]. intros t' u' au' Hx. apply T. change (ps_auct (set_pos p5 bs bpos5)) with (ps_auct p5) in Hx. by rewrite <- (emis_auct _ _ S'). }
    assert (shift (lo_p s) (-1) ∅ ∅ bpos bpos) as B0 by (intros k r; destruct k; rewrite ?getz_empty; lia).
    assert (forall b0 : Book, bk_auct (fold_left (book self bs) (map (pair (c_seq c)) []) b0) = bk_auct b0 /\ forall v k r, acc_k k (bk_acc (fold_left (book self bs) (map (pair (c_seq c)) []) b0) v) r = acc_k k (bk_acc b0 v) r - (if decide (v = bs /\ k = KLiab) then getz (∅ : gmap Addr Z) r else 0)) as E0.
    { intros b0. split; [done|]. intros v k r. rewrite getz_empty. cbn [map fold_left]. destruct (decide _); lia. }
    destruct (bool_decide (po_liab bpos = ∅)).
    { apply Ok_inj in Hk. injection Hk as <- <- <- _. cbn [bind]. eexists. split; [done|]. by apply (Fin1 p4 ch4 bpos ∅ []); try done; apply emis_refl. }
    apply bind_ok in Hk as (pd & -> & Hk). cbn [bind]. destruct (threshold pd <? 3).
    + apply bind_ok in Hk as (m & Hm & Hk). apply bind_ok in Hk as ([[p6 ch6] bpos6] & Hr6 & Hk). apply Ok_inj in Hk. injection Hk as <- <- <- _.
      destruct (debts_ev_ok self bs _ _ _ Hm) as (es & Hes & _). rewrite Hes. cbn [bind]. eexists. split; [done|].
      unfold debts_ev in Hes. apply (debts_book self bs _ (c_seq c)) in Hes as (es' & -> & Hes). cbn [app].
      destruct (rm_shift _ _ _ _ _ _ _ _ _ _ (Wf_cfg _ _ W (emis_cfg _ _ S)) K4 Hr6) as (S6 & K6 & B6). apply (shift_same (lo_p s)) in B6; [|by apply emis_rcfg].
      eapply (Fin1 p6 ch6 bpos6 m es'); try done. intros b0. destruct (Hes b0) as [Hx Hy]. split; [done|]. intros v k r. rewrite Hy. destruct (decide _); [|done]. f_equal.
      rewrite (burn_map_dsum _ _ _ r (cw_nodup _ (proj1 (Wf_cfg _ _ W (emis_cfg _ _ S)))) Hm). done.
    + apply Ok_inj in Hk. injection Hk as <- <- <- _. cbn [bind]. eexists. split; [done|]. by apply (Fin1 p4 ch4 bpos ∅ []); try done; apply emis_refl.
  - cbv beta iota in Hk. apply bind_ok in Hk as ([ch2 x2] & Hk & Hx). apply Ok_inj in Hx. injection Hx as <- <- <- _.
    unfold fill_interest in Hk. apply assert_ok in Hk as [_ Hk]. unfold fill_interest_ev. rewrite Hau. cbn [bind]. rewrite Hsc. cbn [bind].
    apply bind_ok in Hk as (btok & -> & Hk). cbn [bind]. apply bind_ok in Hk as (bid & -> & Hk). cbn [bind]. apply bind_ok in Hk as (x4 & Hd & Hk).
    eexists. split; [done|]. apply (Fin [VBDonate self from bid]); [done|apply cfg_refl| |done|].
    + assert (forall en s0 s1, ch_ok (lo_p s) s0.1 -> foldM (interest_fill_one c self from (lo_p s)) s0 en = Ok s1 -> ch_ok (lo_p s) s1.1) as HF.
      { intros en. induction en as [|e en IH]; intros s0 s1 K0 H; cbn [foldM] in H; [by apply Ok_inj in H as <-|]. apply bind_ok in H as (s2 & H2 & H). eapply IH; [|exact H]. destruct s0 as [ch0 x0]. unfold interest_fill_one in H2.
        apply bind_ok in H2 as ([r chr] & Hl & H2). apply bind_ok in H2 as (cr & _ & H2). cbv zeta in H2. apply bind_ok in H2 as (tk & _ & H2). apply Ok_inj in H2 as <-. cbn [fst].
        apply ch_ok_load in Hl as (K1 & Ha & cfg & Hc & Hi); [|done]. eapply ch_ok_cache; [done|cbn [r_asset]; unfold set; simpl; rewrite Ha; exact Hc|done]. }
      exact (HF _ (lo_ch s, x4) (ch2, x2) K Hk).
    + split; [|by destruct T]. intros u k r. cbn [bk_acc]. unfold b1. rewrite book_fill_acc; [|done|done|by right; right]. cbv zeta. cbn [Z.eqb Pos.eqb map fold_left]. change (book self bs b (c_seq c, VBDonate self from bid)) with b.
      rewrite <- (proj1 T u k r). destruct (u =? bs); [|destruct (u =? from)]; destruct k; lia.
Qed.

(** ** A submit *)
Lemma request_tells c self from s q s' b : do_request c self from s q = Ok s' -> Wf (lo_p s) -> ch_ok (lo_p s) (lo_ch s) -> tells from (lo_p s) (lo_pos s) b ->
  exists es, request_ev c self from s q = Ok es /\
    tells from (lo_p s') (lo_pos s') (fold_left (book self (ps_backstop (lo_p s))) (map (pair (c_seq c)) es) b) /\ kept_in (lo_p s) (lo_p s') (lo_ch s').
Proof.
  unfold do_request. intros H W K T. cbv zeta in H. apply bind_ok in H as (? & _ & H). apply bind_ok in H as (? & _ & H).
  assert (forall t chk, rq_type q = 6 + t -> do_fill c self from t chk s q = Ok s' -> t = 0 \/ t = 1 \/ t = 2 -> exists es, request_ev c self from s q = Ok es /\
    tells from (lo_p s') (lo_pos s') (fold_left (book self (ps_backstop (lo_p s))) (map (pair (c_seq c)) es) b) /\ kept_in (lo_p s) (lo_p s') (lo_ch s')) as HF.
  { intros t chk Hq Hf Ht. pose proof (fill_tells _ _ _ _ _ _ _ _ _ Hf Ht W K T) as R. rewrite <- Hq in R. by replace (mkReq (rq_type q) (rq_addr q) (rq_amt q)) with q in R by (by destruct q). }
  assert (forall k sg f n e, plain_step (c_now c) from s s' (rq_addr q) f n -> pos_sg k sg f ->
    (forall b0, book self (ps_backstop (lo_p s)) b0 (c_seq c, e) = put_acc b0 from (fun acc => match k with KSup => add_supplied acc (rq_addr q) (sg * n) | KColl => add_coll acc (rq_addr q) (sg * n) | KLiab => add_owed acc (rq_addr q) (sg * n) end)) ->
    exists es, Ok [e] = Ok es /\ tells from (lo_p s') (lo_pos s') (fold_left (book self (ps_backstop (lo_p s))) (map (pair (c_seq c)) es) b) /\ kept_in (lo_p s) (lo_p s') (lo_ch s')) as HP.
  { intros k sg f n e Hp Hk Hb. eexists. split; [done|]. cbn [map fold_left]. rewrite Hb. destruct (tells_plain _ _ _ _ _ _ _ _ _ _ Hp Hk W K T) as (T' & S & K'). split; [exact T'|]. split; [by apply emis_cfg|done]. }
  assert (forall n, -1 * n = - n) as M1 by (intros; lia). assert (forall n, 1 * n = n) as P1 by (intros; lia).
  unfold request_ev in *. cbv zeta in *. destruct (rq_type q) as [|k|k]; [|do 4 (try (destruct k as [k|k|]; try discriminate H))|discriminate H].
  all: first
    [ apply (supply_step _ _ _ _ _ (VSupply self (rq_addr q) from)) in H as (n & -> & Hp); apply (HP KSup 1 _ n _ Hp); [by left|]
    | apply (supply_coll_step _ _ _ _ _ (VSupplyColl self (rq_addr q) from)) in H as (n & -> & Hp); apply (HP KColl 1 _ n _ Hp); [by left|]
    | apply (withdraw_step _ _ _ _ _ (VWithdraw self (rq_addr q) from)) in H as (amt & n & -> & Hp); apply (HP KSup (-1) _ n _ Hp); [by right|]
    | apply (withdraw_coll_step _ _ _ _ _ (VWithdrawColl self (rq_addr q) from)) in H as (amt & n & -> & Hp); apply (HP KColl (-1) _ n _ Hp); [by right|]
    | apply (borrow_step _ _ _ _ _ (VBorrow self (rq_addr q) from)) in H as (n & -> & Hp); apply (HP KLiab 1 _ n _ Hp); [by left|]
    | apply (repay_step _ _ _ _ _ (VRepay self (rq_addr q) from)) in H as (amt & n & -> & Hp); apply (HP KLiab (-1) _ n _ Hp); [by right|]
    | apply (HF 0 true eq_refl H); auto | apply (HF 1 true eq_refl H); auto | apply (HF 2 false eq_refl H); auto
    | idtac ].
  all: try (intros b0; unfold book; cbn [snd]; rewrite Z.eqb_refl, ?M1, ?P1; done).
  unfold do_delete in H. apply bind_ok in H as (p1 & Hd & H). apply Ok_inj in H as <-. unfold delete_liquidation in Hd. apply assert_ok in Hd as [_ Hd]. apply Ok_inj in Hd as <-. eexists. split; [done|].
  cbn [map fold_left]. unfold book. cbn [snd]. rewrite Z.eqb_refl. split; [|split; [done|exact K]].
  destruct T as [T1 T2]. split; [exact T1|]. eapply (tells_auct _ (lo_p s) b _ 0 from None); [exact T2|done|done].
Qed.
Lemma requests_tells c self from qs : forall s s' b, foldM (do_request c self from) s qs = Ok s' -> Wf (lo_p s) -> ch_ok (lo_p s) (lo_ch s) -> tells from (lo_p s) (lo_pos s) b ->
  exists es, requests_ev c self from s qs = Ok es /\
    tells from (lo_p s') (lo_pos s') (fold_left (book self (ps_backstop (lo_p s))) (map (pair (c_seq c)) es) b) /\ kept_in (lo_p s) (lo_p s') (lo_ch s').
Proof.
  induction qs as [|q qs IH]; cbn [foldM requests_ev]; intros s s' b H W K T.
  { apply Ok_inj in H as ->. exists []. split; [done|]. split; [exact T|]. split; [apply cfg_refl|done]. }
  apply bind_ok in H as (s1 & H1 & H). destruct (request_tells _ _ _ _ _ _ _ H1 W K T) as (e & -> & T1 & C1 & K1). cbn [bind]. rewrite H1. cbn [bind].
  destruct (IH _ _ _ H (Wf_cfg _ _ W C1) K1 T1) as (es & -> & T2 & C2 & K2). cbn [bind]. eexists. split; [done|].
  rewrite map_app, fold_left_app. assert (ps_backstop (lo_p s1) = ps_backstop (lo_p s)) as Eb by (by destruct C1 as (_ & _ & ? & _)). rewrite Eb in T2. split; [exact T2|]. split; [by eapply cfg_trans|done].
Qed.
(** the accounts and auctions of a stored pool *)
Definition pool_tells (p : PoolSt) (b : Book) : Prop :=
  (forall u k r, acc_k k (bk_acc b u) r = amt p k (get_pos p u) r) /\ (forall t u au, ps_auct p !! (t, u) = Some au -> bk_auct b t u = Some au).
Lemma store_cached_keeps p ch p' : store_cached p ch = Ok p' -> ps_pos p' = ps_pos p /\ ps_auct p' = ps_auct p.
Proof.
  unfold store_cached. match goal with |- foldM ?g _ _ = _ -> _ => set (f := g) end. assert (forall l p p', foldM f p l = Ok p' -> ps_pos p' = ps_pos p /\ ps_auct p' = ps_auct p) as HF; [|apply HF].
  induction l as [|a l IH]; intros q q' H; cbn [foldM] in H; [by apply Ok_inj in H as <-|]. apply bind_ok in H as (q1 & H1 & H). apply IH in H as [-> ->]. unfold f in H1. 
  apply bind_ok in H1 as (r & _ & H1). by apply Ok_inj in H1 as <-.
Qed.
Lemma submit_tells c self px from spender to qs pos px' b : p_submit c self px from spender to qs = Ok (pos, px') -> Wf (px_p px) -> pool_tells (px_p px) b ->
  exists es, submit_ev c self (px_p px) (px_x px) from qs = Ok es /\ pool_tells (px_p px') (fold_left (book self (ps_backstop (px_p px))) (map (pair (c_seq c)) es) b).
Proof.
  unfold p_submit, build_actions, submit_ev. intros H W [T1 T2]. apply bind_ok in H as (? & _ & H). apply bind_ok in H as (? & _ & H). apply assert_ok in H as [_ H]. cbv zeta in H.
  apply bind_ok in H as (s & Hs & H). apply bind_ok in Hs as (s0 & Hs & Hu). apply bind_ok in Hu as (? & _ & Hu). apply Ok_inj in Hu as ->.
  eapply (requests_tells _ _ _ _ _ _ b) in Hs as (es & Hes & [U1 U2] & C & K); [|done| |].
  - exists es. split; [exact Hes|]. cbn [lo_p] in U1, U2.
    apply bind_ok in H as (ch & _ & H). apply bind_ok in H as (t & _ & H). apply bind_ok in H as (p & Hst & H). apply bind_ok in H as (t' & _ & H). apply Ok_inj in H. injection H as _ <-. cbn [px_p].
    pose proof (store_cached_cfg _ _ _ Hst) as Cs. apply store_cached_keeps in Hst as [Ep Ea]. split.
    + intros u k r. rewrite U1. rewrite get_pos_set. unfold vw. change (amt (set_pos p from (lo_pos s))) with (amt p). rewrite (amt_same (lo_p s) p) by (by destruct Cs as (_ & _ & _ & _ & _ & _ & ? & _)).
      destruct (Z.eqb_spec u from) as [->|Hne]; [by rewrite decide_True|rewrite decide_False by done]. by rewrite (get_pos_same _ _ _ Ep).
    + intros t0 u au Hx. apply U2. change (ps_auct (set_pos p from (lo_pos s))) with (ps_auct p) in Hx. by rewrite <- Ea.
  - intros a r Hx. cbn [lo_ch] in Hx. unfold pool_load in Hx. cbn [ch_res] in Hx. by rewrite lookup_empty in Hx.
  - cbn [lo_p lo_pos]. split; [|exact T2]. intros u k r. rewrite T1. unfold vw. by destruct (Z.eqb_spec u from) as [->|].
Qed.

(** ** bad debt and the other calls *)
Lemma bad_debt_book self now user bs l seq : user <> bs -> forall en p ch up bp p' ch' up' bp' a es b,
  foldM (bad_debt_step now user bs l) (p, ch, up, bp) en = Ok (p', ch', up', bp') -> Wf p -> ch_ok p ch ->
  foldM (fun es e => let? r := list_get l (fst e) in Ok (es ++ [VBadDebt self user r (snd e)])) a en = Ok es ->
  (forall u k r, acc_k k (bk_acc b u) r = amt p k (if u =? user then up else if u =? bs then bp else get_pos p u) r) ->
  exists es', es = a ++ es' /\ same_but_emis p p' /\ bk_auct (fold_left (book self bs) (map (pair seq) es') b) = bk_auct b /\
  (forall u k r, acc_k k (bk_acc (fold_left (book self bs) (map (pair seq) es') b) u) r = amt p' k (if u =? user then up' else if u =? bs then bp' else get_pos p' u) r).
Proof.
  intros Hne. induction en as [|e en IH]; intros p ch up bp p' ch' up' bp' a es b H W K He T; cbn [foldM] in H, He.
  - apply Ok_inj in H. injection H as <- <- <- <-. apply Ok_inj in He as <-. exists []. rewrite app_nil_r. split; [done|]. split; [apply emis_refl|]. split; [done|exact T].
  - apply bind_ok in H as ([[[p1 ch1] up1] bp1] & H1 & H). unfold bad_debt_step in H1. apply bind_ok in H1 as (x & Hx & H1). rewrite Hx in He. cbn [bind] in He.
    apply bind_ok in H1 as ([r ch0] & Hl & H1). apply bind_ok in H1 as ([[p2 bp2] r2] & H2 & H1). apply bind_ok in H1 as ([[p4 up4] r4] & H4 & H1). apply Ok_inj in H1. injection H1 as <- <- <- <-.
    pose proof Hl as Hl0. apply ch_ok_load in Hl0 as (K0 & Ha & cfg & Hc & Hi); [|done].
    assert (pos_sg KLiab 1 add_liabilities) as Q1 by (by left). assert (pos_sg KLiab (-1) remove_liabilities) as Q2 by (by right).
    destruct (pos_bump _ _ _ _ _ _ _ _ _ _ _ _ _ _ _ _ (proj1 W) K Q1 Hl H2) as (S2 & K2 & B2).
    assert (exists ch5, load_reserve now p2 (cache_reserve ch0 r2) x true = Ok (r2, ch5) /\ ch_res ch5 = ch_res (cache_reserve ch0 r2)) as (ch5 & Hl5 & Hch5).
    { assert (r_asset r2 = x) as Hx2 by (apply (add_changed KLiab) in H2 as (_ & (_ & _ & _ & ->) & _); [|done]; cbn; exact Ha).
      unfold load_reserve. cbv zeta. match goal with |- context [true && ?z] => destruct (true && z) end;
      match goal with |- context [ch_res ?c0 !! x] => change (ch_res c0) with (<[r_asset r2 := r2]> (ch_res ch0)) end; rewrite Hx2, lookup_insert; eexists; (split; [reflexivity|]); unfold cache_reserve; simpl; by rewrite ?Hx2. }
    destruct (pos_bump _ _ _ _ _ _ _ _ _ _ _ _ _ _ _ _ (proj1 (Wf_cfg _ _ W (emis_cfg _ _ S2))) K2 Q2 Hl5 H4) as (S4 & K4 & B4). apply (bump_same p) in B4; [|by apply emis_rcfg].
    pose proof (emis_trans _ _ _ S2 S4) as S.
    destruct (IH p4 (cache_reserve ch0 r4) up4 bp2 p' ch' up' bp' (a ++ [VBadDebt self user x e.2]) es (book self bs b (seq, VBadDebt self user x e.2))) as (es' & -> & S' & A' & T').
    + exact H.
    + eapply Wf_cfg; [exact W|by apply emis_cfg].
    + intros y z Hz. destruct (K4 y z) as (E1 & E2); [|by split]. unfold cache_reserve in Hz |- *. cbn in Hz |- *. rewrite Hch5. unfold cache_reserve. cbn.
      destruct (decide (y = r_asset r4)) as [->|Hy]; [by rewrite lookup_insert in Hz |- *|]. rewrite lookup_insert_ne in Hz |- * by done.
      assert (r_asset r4 = r_asset r2) as E4 by (by apply (rem_changed KLiab) in H4 as (_ & (_ & _ & _ & ->) & _ & _); [|done]). rewrite lookup_insert_ne by congruence. done.
    + exact He.
    + intros u k y. unfold book. cbn [snd]. rewrite Z.eqb_refl. cbv zeta. rewrite (proj2 (Z.eqb_neq user bs) Hne). cbn [put_acc bk_acc]. rewrite (amt_same p) by (by apply emis_rcfg).
      pose proof (T u k y) as Tu. destruct (Z.eqb_spec u bs) as [->|Hub].
      * rewrite (proj2 (Z.eqb_neq bs user)) in Tu |- * by congruence. rewrite B2, <- Tu. destruct k; cbn [acc_k add_owed supplied collateral owed]; unfold upd; try (rewrite decide_False by done; lia). rewrite decide_True by done. destruct (y =? x); lia.
      * destruct (u =? user).
        -- rewrite B4, <- Tu. destruct k; cbn [acc_k add_owed supplied collateral owed]; unfold upd; try (rewrite decide_False by done; lia). rewrite decide_True by done. destruct (y =? x); lia.
        -- rewrite Tu. unfold amt, get_pos. by rewrite (emis_pos _ _ S).
    + exists (VBadDebt self user x e.2 :: es'). split; [by rewrite <- app_assoc|]. split; [by eapply emis_trans|]. cbn [map fold_left]. split; [|exact T']. rewrite A'. unfold book. cbn [snd]. rewrite Z.eqb_refl. cbv zeta. by rewrite (proj2 (Z.eqb_neq user bs) Hne).
Qed.
Lemma p_bad_debt_tells self c p user p' es b : p_bad_debt c p user = Ok p' -> Wf p -> pool_tells p b -> debts_ev self user (ps_list p) (po_liab (get_pos p user)) = Ok es ->
  pool_tells p' (fold_left (book self (ps_backstop p)) (map (pair (c_seq c)) es) b).
Proof.
  unfold p_bad_debt, debts_ev. intros H W [T1 T2] He. cbv zeta in H. apply assert_ok in H as [Hne H]. apply negb_true_iff, Z.eqb_neq in Hne. apply assert_ok in H as [_ H]. apply bind_ok in H as ([[[q ch] nup] nbp] & H1 & H). apply bind_ok in H as (q1 & Hst & H). apply Ok_inj in H as <-.
  edestruct (bad_debt_book self (c_now c) user (ps_backstop p) (ps_list p) (c_seq c) Hne) as (es' & -> & S & A & T'); [exact H1|done| |exact He| |].
  - intros a r Hx. unfold pool_load in Hx. cbn [ch_res] in Hx. by rewrite lookup_empty in Hx.
  - intros u k r. rewrite T1. destruct (Z.eqb_spec u user) as [->|]; [done|]. destruct (Z.eqb_spec u (ps_backstop p)) as [->|]; done.
  - cbn [app]. pose proof (store_cached_cfg _ _ _ Hst) as Cs. apply store_cached_keeps in Hst as [Ep Ea]. split.
    + intros u k r. rewrite T'. rewrite !get_pos_set. change (amt (set_pos (set_pos q1 (ps_backstop p) nbp) user nup)) with (amt q1). rewrite (amt_same q q1) by (by destruct Cs as (_ & _ & _ & _ & _ & _ & ? & _)).
      destruct (Z.eqb_spec u user) as [->|]; [by rewrite decide_True|rewrite decide_False by done]. destruct (Z.eqb_spec u (ps_backstop p)) as [->|]; [by rewrite decide_True|rewrite decide_False by done]. by rewrite (get_pos_same _ _ _ Ep).
    + intros t u au Hx. rewrite A. apply T2. change (ps_auct _) with (ps_auct q1) in Hx at 1. rewrite Ea, (emis_auct _ _ S) in Hx. exact Hx.
Qed.

(** ** Events of other contracts *)
Definition from_pool (a : Addr) (e : Event) : Prop :=
  match e with
  | VSupply p _ _ _ _ | VWithdraw p _ _ _ _ | VSupplyColl p _ _ _ _ | VWithdrawColl p _ _ _ _ | VBorrow p _ _ _ _ | VRepay p _ _ _ _
  | VFill p _ _ _ _ | VDelete p _ | VBadDebt p _ _ _ | VNewLiq p _ _ | VNewAuction p _ _ => p = a
  | _ => True
  end.
Lemma book_foreign a a' bs seq es b : a' <> a -> Forall (from_pool a') es -> fold_left (book a bs) (map (pair seq) es) b = b.
Proof.
  intros Hne H. induction H as [|e es He _ IH]; [done|]. cbn [map fold_left]. replace (book a bs b (seq, e)) with b; [exact IH|].
  destruct e; cbn [from_pool] in He; try subst; unfold book; cbn [snd]; try done; by rewrite (proj2 (Z.eqb_neq _ _) Hne).
Qed.
Definition unbooked (e : Event) : Prop :=
  match e with
  | VSupply _ _ _ _ _ | VWithdraw _ _ _ _ _ | VSupplyColl _ _ _ _ _ | VWithdrawColl _ _ _ _ _ | VBorrow _ _ _ _ _ | VRepay _ _ _ _ _
  | VFill _ _ _ _ _ | VDelete _ _ | VBadDebt _ _ _ _ | VNewLiq _ _ _ | VNewAuction _ _ _ => False
  | _ => True
  end.
Lemma book_unbooked a bs seq es b : Forall unbooked es -> fold_left (book a bs) (map (pair seq) es) b = b.
Proof. intros H. induction H as [|e es He _ IH]; [done|]. cbn [map fold_left]. replace (book a bs b (seq, e)) with b; [exact IH|]. by destruct e. Qed.
Lemma all_fold {A} (P : Event -> Prop) (f : list Event -> A -> res (list Event)) en : (forall l e l', f l e = Ok l' -> Forall P l -> Forall P l') -> forall l l', foldM f l en = Ok l' -> Forall P l -> Forall P l'.
Proof. intros Hf. induction en as [|e en IH]; cbn [foldM]; intros l l' H Hn; [by apply Ok_inj in H as <-|]. apply bind_ok in H as (l1 & H1 & H). eauto. Qed.
Lemma debts_from self u l liab es : debts_ev self u l liab = Ok es -> Forall (from_pool self) es.
Proof.
  unfold debts_ev. intros H. eapply all_fold; [|exact H|constructor]. intros l0 e l1 H1 H0. apply bind_ok in H1 as (r & _ & H1). apply Ok_inj in H1 as <-. apply Forall_app. split; [done|]. constructor; [done|constructor].
Qed.
Lemma one_from self e es : from_pool self e -> Ok [e] = Ok es -> Forall (from_pool self) es.
Proof. intros He [= <-]. constructor; [exact He|constructor]. Qed.
Lemma request_from c self from s q es : request_ev c self from s q = Ok es -> Forall (from_pool self) es.
Proof.
  unfold request_ev. cbv zeta. intros H.
  assert (forall mk, (forall x n, from_pool self (mk x n)) -> supply_ev (c_now c) s q mk = Ok es -> Forall (from_pool self) es) as HS.
  { intros mk Hm Hs. unfold supply_ev in Hs. apply bind_ok in Hs as ([r ch] & _ & Hs). apply bind_ok in Hs as (m & _ & Hs). by eapply one_from. }
  assert (forall h mk, (forall x n, from_pool self (mk x n)) -> withdraw_ev (c_now c) s q h mk = Ok es -> Forall (from_pool self) es) as HW.
  { intros h mk Hm Hs. unfold withdraw_ev in Hs. apply bind_ok in Hs as ([r ch] & _ & Hs). cbv zeta in Hs. apply bind_ok in Hs as (m & _ & Hs). destruct (_ <? _); [apply bind_ok in Hs as (o & _ & Hs)|]; by eapply one_from. }
  assert (forall mk, (forall x n, from_pool self (mk x n)) -> borrow_ev (c_now c) s q mk = Ok es -> Forall (from_pool self) es) as HB.
  { intros mk Hm Hs. unfold borrow_ev in Hs. apply bind_ok in Hs as ([r ch] & _ & Hs). apply bind_ok in Hs as (m & _ & Hs). by eapply one_from. }
  assert (forall mk, (forall x n, from_pool self (mk x n)) -> repay_ev (c_now c) s q mk = Ok es -> Forall (from_pool self) es) as HR.
  { intros mk Hm Hs. unfold repay_ev in Hs. apply bind_ok in Hs as ([r ch] & _ & Hs). cbv zeta in Hs. apply bind_ok in Hs as (m & _ & Hs). destruct (_ <? _); [apply bind_ok in Hs as (o & _ & Hs); apply bind_ok in Hs as (o1 & _ & Hs); apply bind_ok in Hs as (o2 & _ & Hs)|]; by eapply one_from. }
  destruct (rq_type q) as [|k|k]; [|do 4 (try destruct k as [k|k|])|]; try (apply Ok_inj in H as <-; constructor; [done|constructor] || constructor; fail).
  all: try (eapply HS; [|exact H]; done). all: try (eapply HW; [|exact H]; done). all: try (eapply HB; [|exact H]; done). all: try (eapply HR; [|exact H]; done).
  all: try (apply Ok_inj in H as <-; constructor; fail).
  all: try (apply Ok_inj in H as <-; constructor; [done|constructor]; fail).
  - apply bind_ok in H as (e0 & He & H). apply Ok_inj in H as <-. apply Forall_app. split; [|constructor; [done|constructor]].
    unfold fill_bad_debt_ev in He. cbv zeta in He. apply bind_ok in He as (au & _ & He). apply bind_ok in He as ([tf rem] & _ & He). apply bind_ok in He as ([[p1 ch1] bpos] & _ & He). apply bind_ok in He as ([[p2 ch2] fpos] & _ & He).
    apply bind_ok in He as (bt & _ & He). apply bind_ok in He as (lot & _ & He). apply bind_ok in He as (x & _ & He). destruct (bool_decide _); [eapply one_from; [|exact He]; done|]. apply bind_ok in He as (pd & _ & He).
    destruct (_ <? 3); [|eapply one_from; [|exact He]; done]. apply bind_ok in He as (es1 & He1 & He). apply Ok_inj in He as <-. constructor; [done|]. by eapply debts_from.
  - apply bind_ok in H as (e0 & He & H). apply Ok_inj in H as <-. apply Forall_app. split; [|constructor; [done|constructor]].
    unfold fill_interest_ev in He. apply bind_ok in He as (au & _ & He). apply bind_ok in He as ([tf rem] & _ & He). apply bind_ok in He as (bt & _ & He). apply bind_ok in He as (bid & _ & He). eapply one_from; [|exact He]. done.
Qed.
Lemma requests_from c self from qs : forall s es, requests_ev c self from s qs = Ok es -> Forall (from_pool self) es.
Proof.
  induction qs as [|q qs IH]; intros s es H; cbn [requests_ev] in H; [apply Ok_inj in H as <-; constructor|]. apply bind_ok in H as (e & He & H). apply bind_ok in H as (s1 & _ & H). apply bind_ok in H as (es1 & H1 & H). apply Ok_inj in H as <-.
  apply Forall_app. split; [by eapply request_from|by eapply IH].
Qed.
Lemma gulp_unbooked self (ec : gmap Z EmisConfig) (en : list (Z * Z)) es : foldM (fun es e => let? c := unwrap (ec !! fst e) in Ok (es ++ [VEmis self (fst e) (ec_eps c) (ec_exp c)])) [] en = Ok es -> Forall unbooked es.
Proof.
  intros H. eapply all_fold; [|exact H|constructor]. intros l0 e0 l1 H1 H0. apply bind_ok in H1 as (r & _ & H1). apply Ok_inj in H1 as <-. apply Forall_app. split; [done|]. constructor; [exact I|constructor].
Qed.
Lemma unbooked_from a e : unbooked e -> from_pool a e.
Proof. by destruct e. Qed.
Lemma pool_from c self p x o out p' es : pool_ev c self p x o out p' = Ok es -> Forall (from_pool self) es.
Proof.
  intros H. destruct o; cbn [pool_ev] in H; try (by eapply debts_from; exact H); try (by eapply requests_from; exact H); try (eapply one_from; [|exact H]; done); try (apply Ok_inj in H as <-; constructor; fail).
  all: destruct out; try (eapply one_from; [|exact H]; done); try (apply Ok_inj in H as <-; constructor; fail).
  apply bind_ok in H as (es0 & H0 & H). apply Ok_inj in H as <-. apply Forall_app. split; [|constructor; [done|constructor]]. apply gulp_unbooked in H0. eapply Forall_impl; [exact H0|]. intros; by apply unbooked_from.
Qed.
Lemma ext_unbooked c x o out x' es : ext_ev c x o out x' = Ok es -> Forall unbooked es.
Proof.
  assert (forall e, unbooked e -> Ok [e] = Ok es -> Forall unbooked es) as H1 by (intros e He [= <-]; constructor; [exact He|constructor]).
  intros H. destruct o; cbn [ext_ev] in H; try (eapply H1; [|exact H]; exact I); try (apply Ok_inj in H as <-; constructor; fail).
  all: try (apply bind_ok in H as (s & _ & H); eapply H1; [|exact H]; exact I).
  all: try (destruct out; try (eapply H1; [|exact H]; exact I); apply Ok_inj in H as <-; constructor; fail).
  unfold claim_ev in H. apply bind_ok in H as ([[n m] x1] & _ & H). destruct (0 <? n); [|eapply H1; [|exact H]; exact I]. cbv zeta in H. apply bind_ok in H as (t1 & _ & H). apply bind_ok in H as (t2 & _ & H). apply bind_ok in H as ([es1 x2] & Hf & H). apply Ok_inj in H as <-.
  apply Forall_app. split; [|constructor; [exact I|constructor]]. revert Hf. match goal with |- foldM ?g _ _ = _ -> _ => assert (forall l s s', foldM g s l = Ok s' -> Forall unbooked s.1 -> Forall unbooked s'.1) as HF end.
  { intros l. induction l as [|p l IH]; intros s s' Hs H0; cbn [foldM] in Hs; [by apply Ok_inj in Hs as <-|]. apply bind_ok in Hs as (s1 & Hs1 & Hs). eapply IH; [exact Hs|]. destruct s as [l0 x0]. unfold claim_dep_ev in Hs1.
    apply bind_ok in Hs1 as (a & _ & Hs1). apply bind_ok in Hs1 as (dep & _ & Hs1). apply bind_ok in Hs1 as (sh & _ & Hs1). apply bind_ok in Hs1 as (y & _ & Hs1). apply Ok_inj in Hs1 as <-. cbn [fst]. apply Forall_app. split; [done|]. constructor; [exact I|constructor]. }
  intros Hf. by apply (HF _ _ (es1, x2)) in Hf; [|constructor].
Qed.

(** ** A transaction *)
Lemma kept_tells p p' b : kept p p' -> pool_tells p b -> pool_tells p' b.
Proof. intros (_ & Hp & Hc & _ & Ha & _) [T1 T2]. split; [intros u k r; rewrite (amt_same p p') by done; rewrite (get_pos_same p p') by done; apply T1|]. intros t u au. rewrite Ha. apply T2. Qed.
Lemma emis_tells p p' b : same_but_emis p p' -> pool_tells p b -> pool_tells p' b.
Proof. intros S [T1 T2]. split; [intros u k r; rewrite (amt_same p p') by (by apply emis_rcfg); rewrite (get_pos_same p p') by (by apply emis_pos); apply T1|]. intros t u au. rewrite (emis_auct _ _ S). apply T2. Qed.
Lemma set_auction_tells p b t u au : pool_tells p b -> pool_tells (set_auction p t u au) (put_auct b t u (Some au)).
Proof. intros [T1 T2]. split; [exact T1|]. eapply (tells_auct _ p b _ t u (Some au)); [exact T2|done|done]. Qed.
Lemma res_set_tells now a p p' b : good p -> res_set now a p p' -> pool_tells p b -> pool_tells p' b.
Proof.
  intros G (cfg' & Hr & Hp & Ha & _ & _ & _ & _ & _ & _ & _ & Hcase) [T1 T2]. split; [|intros t u au; rewrite Ha; apply T2]. intros u k r. rewrite T1. rewrite (get_pos_same p p') by done.
  unfold amt, ixp. rewrite Hr. destruct (decide (r = a)) as [->|Hne]; [rewrite lookup_insert|by rewrite lookup_insert_ne by done].
  destruct Hcase as [(Hn & Hi & _)|(cfg & d & d' & Hc & _ & Hi & _)]; [|by rewrite Hc, Hi]. rewrite Hn, Hi. unfold getz.
  assert (forall i, ~ (0 <= i < Z.of_nat (length (ps_list p))) -> default 0 (get_k k (get_pos p u) !! i) = 0) as HO.
  { intros i Hx. destruct (get_k k (get_pos p u) !! i) as [v|] eqn:E; [|done]. by apply (gd_idx _ G) in E. }
  rewrite !HO by lia. done.
Qed.
Lemma create_liquidation_set c self p x u n au p' : create_liquidation c self p x u n = Ok (au, p') -> exists p2, same_but_emis p p2 /\ p' = set_auction p2 0 u au.
Proof.
  unfold create_liquidation. intros H. apply assert_ok in H as [_ H]. apply bind_ok in H as ([au1 p1] & H1 & H). apply Ok_inj in H. injection H as <- <-. exists p1. split; [|done].
  unfold create_user_liq in H1. mon H1. destruct (n =? 100); mon H1; try apply emis_refl; try (match goal with E : rm_positions _ _ _ _ _ = Ok _ |- _ => apply rm_positions_emis in E; exact E end).
Qed.
Lemma step_tells w o out w' a bs b : reachable w -> exec w o = Ok (out, w') -> (ps_init (pool w a) = true -> ps_backstop (pool w a) = bs) -> pool_tells (pool w a) b ->
  pool_tells (pool w' a) (fold_left (book a bs) (map (pair (w_seq w)) (events w o)) b).
Proof.
  intros Hr H Hbs T. destruct (C82_events_defined _ _ _ _ Hr H) as [es Hes]. unfold events. rewrite H, Hes.
  assert (forall a', a' <> a -> Forall (from_pool a') es -> pool w' a = pool w a -> pool_tells (pool w' a) (fold_left (book a bs) (map (pair (w_seq w)) es) b)) as HO.
  { intros a' Ha Hf E. rewrite (book_foreign _ a') by done. by rewrite E. }
  assert (Forall unbooked es -> pool_tells (pool w' a) b -> pool_tells (pool w' a) (fold_left (book a bs) (map (pair (w_seq w)) es) b)) as HU.
  { intros Hf E. by rewrite book_unbooked. }
  destruct (exec_pool _ _ _ _ a H) as [o out w' Ep Hno|sg po out px w' _ Hty Hw Hx Hp' _ _|sg admin salt orc rate mp w' Ha Hn _ _ Hi|t u w' Ep|r w' Ep].
  - destruct o as [sg xo|sg a1 po|sg ad salt orc rate mp|b0|dt ds|orc|n|b0 t u|b0 r|]; cbn [op_ev] in Hes; try (apply HU; [apply Ok_inj in Hes as <-; repeat first [exact I|constructor]|by rewrite Ep]).
    + apply HU; [by eapply ext_unbooked|by rewrite Ep].
    + apply bind_ok in Hes as (p & _ & Hes). apply bind_ok in Hes as (p' & _ & Hes). apply (HO a1); [intros ->; by apply (Hno sg po)|by eapply pool_from|done].
  - cbn [op_ev] in Hes. rewrite Hw in Hes. cbn [bind unwrap] in Hes. apply bind_ok in Hes as (p' & Hp & Hes).
    assert (p' = px_p px) as -> by (unfold pool in Hp'; destruct (w_pools w' !! a); [|done]; injection Hp as <-; exact Hp').
    rewrite Hp'.
    destruct (ps_init (pool w a)) eqn:Ei.
    2:{ destruct po; unfold p_exec in Hx; cbv zeta in Hx; cbn [px_p] in Hx; try (rewrite Ei in Hx; discriminate Hx).
        unfold on_pool in Hx. apply bind_ok in Hx as (p1 & H1 & Hx). apply Ok_inj in Hx. injection Hx as _ <-. cbn [px_p]. apply initialize_spec in H1 as (_ & _ & _ & _ & ->). cbn [pool_ev] in Hes. apply Ok_inj in Hes as <-. exact T. }
    specialize (Hbs eq_refl). pose proof (reachable_good _ _ Hr Ei) as G. assert (Wf (pool w a)) as W by (split; [apply G|done]).
    destruct (p_exec_data _ _ (mkPX (pool w a) (w_ext w)) _ _ _ G Hty Hx) as [[Hm _]|[(r & -> & Hs)|(Hm & _ & Hk)]].
    + destruct po; try discriminate Hm; unfold p_exec in Hx; cbv zeta in Hx; cbn [px_p] in Hx; apply assert_ok in Hx as [_ Hx]; cbn [pool_ev] in Hes.
      * apply bind_ok in Hx as ([pos px1] & H1 & Hx). apply Ok_inj in Hx. injection Hx as _ <-. apply (submit_tells _ _ _ _ _ _ _ _ _ b) in H1 as (es1 & He1 & T1); [|done|done]. cbn [px_p px_x] in He1, T1. rewrite He1 in Hes. apply Ok_inj in Hes as ->. rewrite Hbs in T1. exact T1.
      * unfold on_pool in Hx. apply bind_ok in Hx as (p1 & H1 & Hx). apply Ok_inj in Hx. injection Hx as _ <-. cbn [px_p]. eapply p_bad_debt_tells in Hes; [|exact H1|done|exact T]. rewrite Hbs in Hes. exact Hes.
      * unfold ret_z in Hx. apply bind_ok in Hx as ([n px1] & H1 & Hx). apply Ok_inj in Hx. injection Hx as <- <-. apply p_claim_emis in H1. apply Ok_inj in Hes as <-. cbn [map fold_left]. change (pool_tells (px_p px1) b). by eapply emis_tells.
      * apply bind_ok in Hx as ([au p1] & H1 & Hx). apply Ok_inj in Hx. injection Hx as <- <-. apply create_liquidation_set in H1 as (p2 & S & ->). apply Ok_inj in Hes as <-. cbn [map fold_left px_p]. unfold book. cbn [snd]. rewrite Z.eqb_refl. change (px_p (mkPX (pool w a) (w_ext w) <| px_p := set_auction p2 0 user au |>)) with (set_auction p2 0 user au). apply set_auction_tells. by eapply emis_tells.
      * apply bind_ok in Hx as ([au p1] & H1 & Hx). apply Ok_inj in Hx. injection Hx as <- <-. apply create_bad_debt_auct in H1 as ->. apply Ok_inj in Hes as <-. cbn [map fold_left px_p]. unfold book. cbn [snd]. rewrite Z.eqb_refl, <- Hbs. by apply set_auction_tells.
      * apply bind_ok in Hx as ([au p1] & H1 & Hx). apply Ok_inj in Hx. injection Hx as <- <-. apply create_interest_auct in H1 as ->. apply Ok_inj in Hes as <-. cbn [map fold_left px_p]. unfold book. cbn [snd]. rewrite Z.eqb_refl, <- Hbs. by apply set_auction_tells.
    + rewrite book_unbooked; [by eapply res_set_tells|]. cbn [pool_ev] in Hes. destruct out; apply Ok_inj in Hes as <-; repeat first [exact I|constructor].
    + rewrite book_unbooked; [by eapply kept_tells|]. destruct po; try discriminate Hm; cbn [pool_ev] in Hes; try (apply Ok_inj in Hes as <-; repeat first [exact I|constructor]; fail); destruct out; try (apply Ok_inj in Hes as <-; repeat first [exact I|constructor]; fail).
      apply bind_ok in Hes as (es0 & H0 & Hes). apply Ok_inj in Hes as <-. apply Forall_app. split; [by eapply gulp_unbooked|]. repeat first [exact I|constructor].
  - apply HU; [cbn [op_ev] in Hes; apply Ok_inj in Hes as <-; repeat first [exact I|constructor]|]. apply initialize_spec in Hi as (_ & _ & _ & _ & Hi). rewrite Hi. assert (pool w a = fresh_pool) as E by (unfold pool; by rewrite Hn). rewrite E in T. exact T.
  - apply HU; [apply Ok_inj in Hes as <-; constructor|]. rewrite Ep. destruct T as [T1 T2]. split; [exact T1|]. intros t' u' au Hx. apply T2. unfold del_auction in Hx. cbn in Hx. apply lookup_delete_Some in Hx as [_ Hx]. exact Hx.
  - apply HU; [apply Ok_inj in Hes as <-; constructor|]. rewrite Ep. exact T.
Qed.
Lemma right_tells w a b : book_right w a b <-> pool_tells (pool w a) b.
Proof.
  unfold book_right, pool_tells. split; intros [H1 H2]; (split; [|exact H2]).
  - intros u k r. specialize (H1 u). rewrite same_acc_k in H1. rewrite <- H1. by destruct k.
  - intros u. apply same_acc_k. intros k r. rewrite H1. by destruct k.
Qed.
Lemma log_tells a bs l : forall w b, reachable w -> (ps_init (pool (run w l) a) = true -> ps_backstop (pool (run w l) a) = bs) ->
  pool_tells (pool w a) b -> pool_tells (pool (run w l) a) (fold_left (book a bs) (event_log w l) b).
Proof.
  induction l as [|o l IH]; intros w b Hr Hbs T; [exact T|]. cbn [event_log]. rewrite fold_left_app. change (run w (o :: l)) with (run (step w o) l) in *. apply IH; [apply (reachable_run w [o] Hr)|exact Hbs|].
  assert (ps_init (pool w a) = true -> ps_backstop (pool w a) = bs) as Hb0.
  { intros Hi. destruct (C61_initialized_once w (o :: l)) as (_ & _ & _ & H). apply H in Hi as (Hi & Hb & _). change (run w (o :: l)) with (run (step w o) l) in *. rewrite <- Hb. by apply Hbs. }
  unfold step. destruct (exec w o) as [[out w']|e] eqn:E; [by eapply step_tells|]. unfold events. rewrite E. exact T.
Qed.

(** ** C83: replaying a pool's events on a right book keeps it right, whatever happens in between; from the genesis, on an
    empty book.  Events of other pools and contracts change nothing. *)
Theorem C83_book_replay w l a b : reachable w -> book_right w a b ->
  book_right (run w l) a (fold_left (book a (ps_backstop (pool (run w l) a))) (event_log w l) b).
Proof. rewrite !right_tells. intros Hr T. by apply log_tells. Qed.
Theorem C83_from_genesis w l a : initial w ->
  book_right (run w l) a (fold_left (book a (ps_backstop (pool (run w l) a))) (event_log w l) empty_book).
Proof.
  intros Hi. apply C83_book_replay; [by apply reachable_initial|]. destruct Hi as (now & seq & t & o & lp & -> & _). split; [|done].
  intros u. apply same_acc_k. intros k r. by destruct k.
Qed.
