(** * The event log accounts for the tokens of a pool (C84) *)
From Verif Require Import Base Types Token Emitter Factory Backstop PoolReserve PoolUser PoolHealth
  PoolAuction PoolSubmit PoolEmis PoolAdmin World Events Facts XMove Spec FrameFacts PoolFrame PoolCfg PoolAccrue PoolTrace PoolInv AuctionFacts
  PoolSim PoolReq PoolHF PoolOps PoolLiq PoolReach BackMoves BackInv BackEmis PropsEmitter PropsAdmin PropsBackstop PropsBackstop4 PropsPool1 PropsPool2 PropsPool3 PropsPool4 PoolTx PropsPool11 PropsAdmin3 PropsToken PropsEvents1 PropsEvents2.

(** ** Specification *)
(** what an event says pool [a] received of token [tok]; the lot of an interest auction is known from the book *)
Definition flow_of (a tok : Addr) (b : Book) (se : Z * Event) : Z :=
  match snd se with
  | VSupply p r _ n _ | VSupplyColl p r _ n _ | VRepay p r _ n _ => if (p =? a) && (r =? tok) then n else 0
  | VWithdraw p r _ n _ | VWithdrawColl p r _ n _ | VBorrow p r _ n _ => if (p =? a) && (r =? tok) then - n else 0
  | VFill p u t _ amt => if (p =? a) && (t =? 2) then
      match bk_auct b 2 u with Some au => - amount_at (au_lot (filled au (amt mod 2 ^ 64) (fst se - au_block au))) tok | None => 0 end else 0
  | _ => 0
  end.
Fixpoint cash (a bs tok : Addr) (b : Book) (log : list (Z * Event)) : Z :=
  match log with [] => 0 | se :: log => flow_of a tok b se + cash a bs tok (book a bs b se) log end.
(** transactions that may send tokens to [a] without pool [a] taking part: mints, transfers and draws to it; emissions and the drop of the
    backstop if they are directed at it; and payouts of pools and claims that name it as the receiver *)
Definition gift (w : World) (a : Addr) (o : Op) : Prop :=
  match o with
  | OExt _ (TMint _ to _) | OExt _ (TTransfer _ _ to _) | OExt _ (TTransferFrom _ _ _ to _) | OExt _ (BDraw _ _ to) => to = a
  | OExt _ EDistribute | OExt _ ESwap => em_backstop (x_em (w_ext w)) = a
  | OExt _ (EDrop l) => a ∈ l.*1
  | OExt _ BDrop => exists l, bs_drop (x_bs (w_ext w)) = Some l /\ a ∈ l.*1
  | OExt _ (BClaim _ _ _ _) => bs_token (x_bs (w_ext w)) = a
  | OPool _ p (PSubmit _ _ to _) => p <> a /\ to = a
  | OPool _ _ (PClaim _ _ to) => to = a
  | _ => False
  end.

(** ** A submit *)
Lemma cash_app a bs tok : forall l l' b, cash a bs tok b (l ++ l') = cash a bs tok b l + cash a bs tok (fold_left (book a bs) l b) l'.
Proof. induction l as [|e l IH]; intros l' b; [done|]. cbn [app cash fold_left]. rewrite IH. lia. Qed.
Definition quiet (e : Event) : Prop := forall a tok b seq, flow_of a tok b (seq, e) = 0.
Lemma cash_quiet a bs tok seq es : Forall quiet es -> forall b, cash a bs tok b (map (pair seq) es) = 0.
Proof. induction 1 as [|e es He _ IH]; intros b; [done|]. cbn [map cash]. by rewrite He, IH. Qed.
Lemma quiet_fill p u t f n : t <> 2 -> quiet (VFill p u t f n).
Proof. intros Ht a tok b seq. unfold flow_of. cbn [snd]. rewrite (proj2 (Z.eqb_neq t 2)) by done. by rewrite andb_false_r. Qed.

Definition till (tok self : Addr) (s : Loop) : Z :=
  balance (x_tok (lo_x s)) tok self + getz (ac_spender (lo_ac s)) tok - getz (ac_pool (lo_ac s)) tok.
Lemma add_spender_get ac a n ac' tok : add_spender ac a n = Ok ac' ->
  getz (ac_spender ac') tok = getz (ac_spender ac) tok + (if a =? tok then n else 0) /\ ac_pool ac' = ac_pool ac.
Proof.
  unfold add_spender. intros H. apply bind_ok in H as (v & Hv & H). apply i128_ok in Hv as [-> _]. apply Ok_inj in H as <-. unfold set. simpl. split; [|done].
  rewrite getz_insert. destruct (Z.eqb_spec a tok) as [->|]; [rewrite decide_True by done; unfold getz; lia|rewrite decide_False by congruence; lia].
Qed.
Lemma add_pool_get ac a n ac' tok : add_pool ac a n = Ok ac' ->
  getz (ac_pool ac') tok = getz (ac_pool ac) tok + (if a =? tok then n else 0) /\ ac_spender ac' = ac_spender ac.
Proof.
  unfold add_pool. intros H. apply bind_ok in H as (v & Hv & H). apply i128_ok in Hv as [-> _]. apply Ok_inj in H as <-. unfold set. simpl. split; [|done].
  rewrite getz_insert. destruct (Z.eqb_spec a tok) as [->|]; [rewrite decide_True by done; unfold getz; lia|rewrite decide_False by congruence; lia].
Qed.
(** a position change keeps the asset *)
Lemma pos_asset k sg f now p u ch a st r ch1 pos n p' pos' r' : pos_sg k sg f -> load_reserve now p ch a st = Ok (r, ch1) -> ch_ok p ch ->
  f now p u pos r n = Ok (p', pos', r') -> r_asset r' = a /\ r_asset r = a.
Proof.
  intros Hf Hl K H. apply ch_ok_load in Hl as (_ & <- & _); [|done]. destruct Hf as [[-> Hf]|[-> Hf]].
  - apply (add_changed k) in H as (_ & (_ & _ & _ & ->) & ->); done.
  - apply (rem_changed k) in H as (_ & (_ & _ & _ & ->) & _ & ->); done.
Qed.
Lemma supply_cash c self from s q s' e b bs tok mk f : (forall a m, flow_of self tok b (c_seq c, mk a m) = if rq_addr q =? tok then a else 0) -> (exists k, pos_sg k 1 f) -> ch_ok (lo_p s) (lo_ch s) ->
  (let? '(r, ch) := load_reserve (c_now c) (lo_p s) (lo_ch s) (rq_addr q) true in
   let? m := b_down (r_data r) (rq_amt q) in
   let? '(p, pos, r) := f (c_now c) (lo_p s) from (lo_pos s) r m in
   let? ac := add_spender (lo_ac s) (r_asset r) (rq_amt q) in
   Ok (mkLoop p (lo_x s) (cache_reserve ch r) pos ac (lo_check s))) = Ok s' ->
  supply_ev (c_now c) s q mk = Ok e -> till tok self s' = till tok self s + cash self bs tok b (map (pair (c_seq c)) e).
Proof.
  intros Hm [k Hk] K H He. unfold supply_ev in He. apply bind_ok in H as ([r ch] & Hl & H). rewrite Hl in He. cbn [bind] in He. apply bind_ok in H as (m & Hb & H). rewrite Hb in He. cbn [bind] in He. apply Ok_inj in He as <-.
  apply bind_ok in H as ([[p1 pos] r1] & Hf & H). destruct (pos_asset _ _ _ _ _ _ _ _ _ _ _ _ _ _ _ _ Hk Hl K Hf) as [Ha _]. apply bind_ok in H as (ac & Hac & H). apply Ok_inj in H as <-.
  rewrite Ha in Hac. apply (add_spender_get _ _ _ _ tok) in Hac as [H1 H2]. unfold till. cbn [lo_x lo_ac map cash]. rewrite H1, H2, Hm. lia.
Qed.
Lemma withdraw_cash c self from s q s' e b bs tok mk f held chk : (forall a m, flow_of self tok b (c_seq c, mk a m) = if rq_addr q =? tok then - a else 0) -> (exists k, pos_sg k (-1) f) -> ch_ok (lo_p s) (lo_ch s) ->
  (let? '(r, ch) := load_reserve (c_now c) (lo_p s) (lo_ch s) (rq_addr q) true in
   let cur := held (lo_pos s) (r_index r) in
   let? tb := b_up (r_data r) (rq_amt q) in
   let? '(tb, out) := (if cur <? tb then let? o := asset_from_b (r_data r) cur in Ok (cur, o) else Ok (tb, rq_amt q)) in
   let? '(p, pos, r) := f (c_now c) (lo_p s) from (lo_pos s) r tb in
   let? ac := add_pool (lo_ac s) (r_asset r) out in
   Ok (mkLoop p (lo_x s) (cache_reserve ch r) pos ac chk)) = Ok s' ->
  withdraw_ev (c_now c) s q held mk = Ok e -> till tok self s' = till tok self s + cash self bs tok b (map (pair (c_seq c)) e).
Proof.
  intros Hm [k Hk] K H He. unfold withdraw_ev in He. cbv zeta in *. apply bind_ok in H as ([r ch] & Hl & H). rewrite Hl in He. cbn [bind] in He. apply bind_ok in H as (m & Hb & H). rewrite Hb in He. cbn [bind] in He.
  apply bind_ok in H as ([tb out] & Ho & H). apply bind_ok in H as ([[p1 pos] r1] & Hf & H). destruct (pos_asset _ _ _ _ _ _ _ _ _ _ _ _ _ _ _ _ Hk Hl K Hf) as [Ha _]. apply bind_ok in H as (ac & Hac & H). apply Ok_inj in H as <-.
  rewrite Ha in Hac. apply (add_pool_get _ _ _ _ tok) in Hac as [H1 H2].
  assert (e = [mk out tb]) as ->.
  { destruct (_ <? m); [|apply Ok_inj in Ho, He; by injection Ho as <- <-]. apply bind_ok in Ho as (o & Hao & Ho). rewrite Hao in He. cbn [bind] in He. apply Ok_inj in Ho, He. by injection Ho as <- <-. }
  unfold till. cbn [lo_x lo_ac map cash]. rewrite H1, H2, Hm. destruct (_ =? _); lia.
Qed.
Lemma borrow_cash c self from s q s' e b bs tok mk : (forall a m, flow_of self tok b (c_seq c, mk a m) = if rq_addr q =? tok then - a else 0) -> ch_ok (lo_p s) (lo_ch s) ->
  do_borrow (c_now c) from s q = Ok s' -> borrow_ev (c_now c) s q mk = Ok e -> till tok self s' = till tok self s + cash self bs tok b (map (pair (c_seq c)) e).
Proof.
  intros Hm K H He. unfold do_borrow in H. unfold borrow_ev in He. apply bind_ok in H as ([r ch] & Hl & H). rewrite Hl in He. cbn [bind] in He. apply bind_ok in H as (m & Hb & H). rewrite Hb in He. cbn [bind] in He. apply Ok_inj in He as <-.
  apply bind_ok in H as ([[p1 pos] r1] & Hf & H). destruct (pos_asset KLiab 1 add_liabilities _ _ _ _ _ _ _ _ _ _ _ _ _ (or_introl (conj eq_refl eq_refl)) Hl K Hf) as [Ha _]. apply bind_ok in H as (? & _ & H). apply bind_ok in H as (ac & Hac & H). apply Ok_inj in H as <-.
  rewrite Ha in Hac. apply (add_pool_get _ _ _ _ tok) in Hac as [H1 H2]. unfold till. cbn [lo_x lo_ac map cash]. rewrite H1, H2, Hm. destruct (_ =? _); lia.
Qed.
Lemma repay_cash c self from s q s' e b bs tok mk : (forall a m, flow_of self tok b (c_seq c, mk a m) = if rq_addr q =? tok then a else 0) -> ch_ok (lo_p s) (lo_ch s) ->
  do_repay (c_now c) from s q = Ok s' -> repay_ev (c_now c) s q mk = Ok e -> till tok self s' = till tok self s + cash self bs tok b (map (pair (c_seq c)) e).
Proof.
  intros Hm K H He. unfold do_repay in H. unfold repay_ev in He. cbv zeta in *. apply bind_ok in H as ([r ch] & Hl & H). rewrite Hl in He. cbn [bind] in He. apply bind_ok in H as (m & Hb & H). rewrite Hb in He. cbn [bind] in He.
  apply bind_ok in H as (ac & Hac & H). pose proof (ch_ok_load _ _ _ _ _ _ _ Hl K) as (_ & Ha & _). rewrite Ha in Hac. apply (add_spender_get _ _ _ _ tok) in Hac as [H1 H2].
  destruct (_ <? m).
  - apply bind_ok in H as (ow & Ho & H). rewrite Ho in He. cbn [bind] in He. apply bind_ok in H as (rf & Hrf & H). rewrite Hrf in He. cbn [bind] in He. apply bind_ok in H as (? & Hn & H).
    apply bind_ok in H as ([[p1 pos] r1] & Hf & H). destruct (pos_asset KLiab (-1) remove_liabilities _ _ _ _ _ _ _ _ _ _ _ _ _ (or_intror (conj eq_refl eq_refl)) Hl K Hf) as [Ha1 _].
    apply bind_ok in H as (ac' & Hac & H). apply Ok_inj in H as <-. rewrite Ha1 in Hac. apply (add_pool_get _ _ _ _ tok) in Hac as [H3 H4].
    apply bind_ok in He as (kp & Hkp & He). apply i128_ok in Hkp as [-> _]. apply Ok_inj in He as <-. unfold till. cbn [lo_x lo_ac map cash]. rewrite H3, H4, H1, H2, Hm. destruct (_ =? _); lia.
  - apply bind_ok in H as ([[p1 pos] r1] & Hf & H). apply Ok_inj in H as <-. apply Ok_inj in He as <-. unfold till. cbn [lo_x lo_ac map cash]. rewrite H1, H2, Hm. lia.
Qed.
Lemma debts_quiet self u l liab es : debts_ev self u l liab = Ok es -> Forall quiet es.
Proof. intros H. refine (all_fold quiet _ _ _ [] es H (List.Forall_nil _)). intros l0 e l' He Hl. apply bind_ok in He as (a & _ & He). apply Ok_inj in He as <-. apply Forall_app. split; [done|]. by constructor. Qed.
Lemma move_other t k f to n t' tok v : f <> v -> to <> v -> tok_move t k f to n = Ok t' -> balance t' tok v = balance t tok v.
Proof.
  intros Hf Ht H. apply tok_move_spec in H as (_ & _ & _ & Hb & _). rewrite Hb. rewrite (bool_decide_eq_false_2 (k = tok /\ f = v)), (bool_decide_eq_false_2 (k = tok /\ to = v)); [lia|by intros [_ ?]..].
Qed.
Lemma draw_till c x p n t x' tok v : v < 0 -> t <> v -> b_draw c x p n t = Ok x' -> balance (x_tok x') tok v = balance (x_tok x) tok v.
Proof.
  intros Hv Ht H. unfold b_draw in H. mon H. simpl. match goal with E : transfer _ _ _ _ _ _ = Ok _ |- _ => apply transfer_move in E as [_ E]; eapply move_other in E; [exact E|unfold bs_addr; lia|done] end.
Qed.
Lemma donate_till c x f p n x' tok v : v < 0 -> f <> v -> b_donate c x f p n = Ok x' -> balance (x_tok x') tok v = balance (x_tok x) tok v.
Proof.
  intros Hv Ht H. unfold b_donate in H. mon H. simpl. match goal with E : transfer _ _ _ _ _ _ = Ok _ |- _ => apply transfer_move in E as [_ E]; eapply move_other in E; [exact E|done|unfold bs_addr; lia] end.
Qed.
Lemma burns_tok self ch m x : x_tok (log_burns self ch m x) = x_tok x.
Proof. unfold log_burns. induction (entries m) as [|e l IH]; [done|]. simpl. done. Qed.
Lemma lots_till c self from p tok : from <> self -> forall en s s', foldM (interest_fill_one c self from p) s en = Ok s' ->
  balance (x_tok s'.2) tok self = balance (x_tok s.2) tok self - sumz (fun e => if decide (e.1 = tok) then e.2 else 0) en.
Proof.
  intros Hf. induction en as [|e en IH]; intros s s' H; cbn [foldM] in H; [apply Ok_inj in H as <-; rewrite sumz_nil; lia|].
  apply bind_ok in H as (s1 & H1 & H). rewrite (IH _ _ H), sumz_cons. destruct s as [ch x]. unfold interest_fill_one in H1. apply bind_ok in H1 as ([r chr] & _ & H1). apply bind_ok in H1 as (cr & _ & H1). cbv zeta in H1.
  apply bind_ok in H1 as (t & Ht & H1). apply Ok_inj in H1 as <-. cbn [snd]. change (x_tok (x <| x_tok := t |>)) with t. apply transfer_move in Ht as [_ Ht]. apply tok_move_spec in Ht as (_ & _ & _ & Hb & _). rewrite Hb.
  rewrite (bool_decide_eq_false_2 (e.1 = tok /\ from = self)) by (by intros [_ ?]). destruct (decide (e.1 = tok)) as [Et|Et]; [rewrite bool_decide_eq_true_2 by done|rewrite bool_decide_eq_false_2 by (by intros [? _])]; lia.
Qed.
Lemma fill_cash c self from s q s' t chk e b tok : self < 0 -> from <> self -> do_fill c self from t chk s q = Ok s' -> t = 0 \/ t = 1 \/ t = 2 ->
  tells from (lo_p s) (lo_pos s) b -> request_ev c self from s (mkReq (6 + t) (rq_addr q) (rq_amt q)) = Ok e ->
  till tok self s' = till tok self s + cash self (ps_backstop (lo_p s)) tok b (map (pair (c_seq c)) e).
Proof.
  unfold do_fill. intros Hs Hfs H Ht T He. apply bind_ok in H as ([[[p ch] pos] x] & Hf & H). apply Ok_inj in H as <-. unfold till. cbn [lo_x lo_ac].
  unfold fill in Hf. apply assert_ok in Hf as [_ Hf]. apply bind_ok in Hf as (au & Hau & Hf). apply bind_ok in Hf as ([tf rem] & Hsc & Hf).
  apply bind_ok in Hf as ([[[p1 ch1] pos1] x1] & Hk & Hf). cbv zeta in Hf. assert (x1 = x) as -> by (apply Ok_inj in Hf; by injection Hf). clear Hf.
  enough (balance (x_tok x) tok self = balance (x_tok (lo_x s)) tok self + cash self (ps_backstop (lo_p s)) tok b (map (pair (c_seq c)) e)) by lia.
  destruct Ht as [->|[->| ->]]; cbn [Z.eqb Pos.eqb] in Hk; unfold request_ev in He; cbn [rq_type rq_addr rq_amt Z.add Pos.add Pos.succ] in He; cbv zeta in He.
  - apply bind_ok in Hk as (s1 & _ & Hk). apply Ok_inj in Hk. injection Hk as _ <-. apply Ok_inj in He as <-. rewrite cash_quiet; [lia|]. constructor; [by apply quiet_fill|done].
  - apply bind_ok in He as (es & He & Hx). apply Ok_inj in Hx as <-.
    rewrite cash_quiet; [|apply Forall_app; split; [|constructor; [by apply quiet_fill|done]]].
    + cbv beta iota in Hk. unfold fill_bad_debt in Hk. cbv zeta in Hk. apply assert_ok in Hk as [_ Hk]. apply bind_ok in Hk as ([[p2 ch2] bpos] & _ & Hk). apply bind_ok in Hk as ([[p3 ch3] fpos] & _ & Hk).
      apply bind_ok in Hk as (btok & _ & Hk). apply bind_ok in Hk as (lot & _ & Hk). apply bind_ok in Hk as (x2 & Hd & Hk). apply (draw_till _ _ _ _ _ _ tok self) in Hd; [|done|done]. rewrite Z.add_0_r, <- Hd.
      destruct (bool_decide (po_liab bpos = ∅)); [by apply Ok_inj in Hk; injection Hk as _ _ _ <-|]. apply bind_ok in Hk as (pd & _ & Hk). destruct (threshold pd <? 3).
      * apply bind_ok in Hk as (m & _ & Hk). apply bind_ok in Hk as ([[p4 ch4] bpos4] & _ & Hk). apply Ok_inj in Hk. injection Hk as _ _ _ <-. by rewrite burns_tok.
      * apply Ok_inj in Hk. by injection Hk as _ _ _ <-.
    + unfold fill_bad_debt_ev in He. cbv zeta in He. apply bind_ok in He as (? & _ & He). apply bind_ok in He as ([? ?] & _ & He). apply bind_ok in He as ([[? ?] bpos] & _ & He). apply bind_ok in He as ([[? ?] ?] & _ & He). apply bind_ok in He as (? & _ & He). apply bind_ok in He as (? & _ & He). apply bind_ok in He as (? & _ & He).
      assert (forall l, Forall quiet l -> Forall quiet (VBDraw self from x2 :: l)) as HD by (intros l Hl; by constructor).
      destruct (bool_decide _); [apply Ok_inj in He as <-; by apply HD|]. apply bind_ok in He as (? & _ & He). destruct (_ <? _); [apply bind_ok in He as (ds & Hds & He)|]; apply Ok_inj in He as <-; apply HD; [by eapply debts_quiet|done].
  - cbv beta iota in Hk. apply bind_ok in Hk as ([ch2 x2] & Hk & Hx). apply Ok_inj in Hx. injection Hx as _ _ _ <-. apply bind_ok in He as (es & He & Hx). apply Ok_inj in Hx as <-.
    unfold fill_interest in Hk. apply assert_ok in Hk as [_ Hk]. unfold fill_interest_ev in He. rewrite Hau in He. cbn [bind] in He. rewrite Hsc in He. cbn [bind] in He.
    apply bind_ok in Hk as (btok & Hbt & Hk). rewrite Hbt in He. cbn [bind] in He. apply bind_ok in Hk as (bid & Hbd & Hk). rewrite Hbd in He. cbn [bind] in He. apply Ok_inj in He as <-. apply bind_ok in Hk as (x4 & Hd & Hk).
    apply (donate_till _ _ _ _ _ _ tok self) in Hd; [|done|done]. apply (lots_till _ _ _ _ tok) in Hk; [|done]. cbn [snd] in Hk. rewrite Hk, Hd.
    cbn [app map cash]. change (flow_of self tok b (c_seq c, VBDonate self from bid)) with 0. change (book self (ps_backstop (lo_p s)) b (c_seq c, VBDonate self from bid)) with b.
    unfold flow_of. cbn [snd fst]. rewrite Z.eqb_refl. cbn [andb Z.eqb Pos.eqb].
    assert (ps_auct (lo_p s) !! (2, rq_addr q) = Some au) as Hau' by (unfold unwrap in Hau; destruct (ps_auct (lo_p s) !! _); [by injection Hau as ->|done]).
    destruct T as [_ T]. rewrite (T _ _ _ Hau'). apply scale_filled in Hsc as Hsp; [|unfold as_u64; apply Z.mod_pos_bound; lia]. destruct Hsp as (_ & _ & Htf & _). unfold as_u64 in Htf. rewrite <- Htf.
    rewrite (sum_entries (au_lot tf) tok (fun v => v)). unfold amount_at. destruct (au_lot tf !! tok); simpl; lia.
Qed.
Lemma request_cash c self from s q s' e b tok : self < 0 -> from <> self -> do_request c self from s q = Ok s' -> ch_ok (lo_p s) (lo_ch s) -> tells from (lo_p s) (lo_pos s) b ->
  request_ev c self from s q = Ok e -> till tok self s' = till tok self s + cash self (ps_backstop (lo_p s)) tok b (map (pair (c_seq c)) e).
Proof.
  unfold do_request. intros Hs Hfs H K T He. cbv zeta in H. apply bind_ok in H as (? & _ & H). apply bind_ok in H as (? & _ & H).
  assert (forall t chk, rq_type q = 6 + t -> do_fill c self from t chk s q = Ok s' -> t = 0 \/ t = 1 \/ t = 2 -> till tok self s' = till tok self s + cash self (ps_backstop (lo_p s)) tok b (map (pair (c_seq c)) e)) as HF.
  { intros t chk Hq Hf Ht. eapply fill_cash; try done. rewrite <- Hq. by replace (mkReq (rq_type q) (rq_addr q) (rq_amt q)) with q by (by destruct q). }
  assert (forall z : Z, (if (self =? self) && (rq_addr q =? tok) then z else 0) = if rq_addr q =? tok then z else 0) as HS by (intros z; by rewrite Z.eqb_refl).
  unfold request_ev in *. cbv zeta in *. destruct (rq_type q) as [|k|k]; [|do 4 (try (destruct k as [k|k|]; try discriminate H))|discriminate H].
  all: first
    [ eapply (supply_cash c self from s q s' e b _ tok (VSupply self (rq_addr q) from) add_supply); [intros; apply HS|exists KSup; by left|done|exact H|exact He]
    | eapply (supply_cash c self from s q s' e b _ tok (VSupplyColl self (rq_addr q) from) add_collateral); [intros; apply HS|exists KColl; by left|done|exact H|exact He]
    | eapply (withdraw_cash c self from s q s' e b _ tok (VWithdraw self (rq_addr q) from) remove_supply); [intros; apply HS|exists KSup; by right|done|exact H|exact He]
    | eapply (withdraw_cash c self from s q s' e b _ tok (VWithdrawColl self (rq_addr q) from) remove_collateral); [intros; apply HS|exists KColl; by right|done|exact H|exact He]
    | eapply (borrow_cash c self from s q s' e b _ tok (VBorrow self (rq_addr q) from)); [intros; apply HS|done|exact H|exact He]
    | eapply (repay_cash c self from s q s' e b _ tok (VRepay self (rq_addr q) from)); [intros; apply HS|done|exact H|exact He]
    | apply (HF 0 true eq_refl H); auto | apply (HF 1 true eq_refl H); auto | apply (HF 2 false eq_refl H); auto
    | idtac ].
  unfold do_delete in H. apply bind_ok in H as (p1 & Hd & H). apply Ok_inj in H as <-. apply Ok_inj in He as <-. cbn [map cash]. change (till tok self (s <| lo_p := p1 |> <| lo_check := true |>)) with (till tok self s). unfold flow_of. cbn [snd]. lia.
Qed.
Lemma requests_cash c self from qs tok : self < 0 -> from <> self -> forall s s' e b, foldM (do_request c self from) s qs = Ok s' -> Wf (lo_p s) -> ch_ok (lo_p s) (lo_ch s) -> tells from (lo_p s) (lo_pos s) b ->
  requests_ev c self from s qs = Ok e -> till tok self s' = till tok self s + cash self (ps_backstop (lo_p s)) tok b (map (pair (c_seq c)) e).
Proof.
  intros Hs Hfs. induction qs as [|q qs IH]; cbn [foldM requests_ev]; intros s s' e b H W K T He.
  { apply Ok_inj in H as ->. apply Ok_inj in He as <-. cbn [map cash]. lia. }
  apply bind_ok in H as (s1 & H1 & H). destruct (request_tells _ _ _ _ _ _ _ H1 W K T) as (e1 & He1 & T1 & C1 & K1). rewrite He1 in He. cbn [bind] in He. rewrite H1 in He. cbn [bind] in He. apply bind_ok in He as (e2 & He2 & He). apply Ok_inj in He as <-.
  assert (ps_backstop (lo_p s1) = ps_backstop (lo_p s)) as Eb by (by destruct C1 as (_ & _ & ? & _)).
  specialize (IH _ _ _ _ H (Wf_cfg _ _ W C1) K1 T1 He2). rewrite Eb in IH. rewrite map_app, cash_app, IH, (request_cash _ _ _ _ _ _ _ _ tok Hs Hfs H1 K T He1). lia.
Qed.
Lemma submit_cash c self px from spender to qs pos px' e b tok : p_submit c self px from spender to qs = Ok (pos, px') -> self < 0 -> Wf (px_p px) -> pool_tells (px_p px) b ->
  submit_ev c self (px_p px) (px_x px) from qs = Ok e ->
  balance (x_tok (px_x px')) tok self = balance (x_tok (px_x px)) tok self + cash self (ps_backstop (px_p px)) tok b (map (pair (c_seq c)) e).
Proof.
  unfold p_submit, submit_ev. intros H Hs W T He. apply bind_ok in H as (? & _ & H). apply bind_ok in H as (? & _ & H). apply assert_ok in H as [Hn H]. apply negb_true_iff, orb_false_iff in Hn as [Hn Hto]. apply orb_false_iff in Hn as [Hfr Hsp].
  apply Z.eqb_neq in Hto, Hfr, Hsp. cbv zeta in H.
  apply bind_ok in H as (s & Hb & H). apply bind_ok in H as (ch & _ & H). apply bind_ok in H as (t1 & Ht1 & H). apply bind_ok in H as (p & _ & H). apply bind_ok in H as (t2 & Ht2 & H). apply Ok_inj in H. injection H as _ <-.
  unfold build_actions in Hb. apply bind_ok in Hb as (s' & Hb & Hx). apply bind_ok in Hx as (? & _ & Hx). apply Ok_inj in Hx as ->.
  cbn [px_x]. change (x_tok (lo_x s <| x_tok := t2 |>)) with t2. rewrite (transfer_all_spec _ _ _ _ _ _ Ht2), (transfer_all_spec _ _ _ _ _ _ Ht1). rewrite Z.eqb_refl.
  rewrite (proj2 (Z.eqb_neq self to)), (proj2 (Z.eqb_neq self spender)) by congruence.
  pose proof (requests_cash c self from qs tok Hs Hfr _ _ e b Hb) as R. cbn [lo_p lo_ch lo_pos] in R. unfold till in R. cbn [lo_x lo_ac no_actions ac_spender ac_pool] in R. rewrite !getz_empty in R.
  enough (balance (x_tok (lo_x s)) tok self + getz (ac_spender (lo_ac s)) tok - getz (ac_pool (lo_ac s)) tok = balance (x_tok (px_x px)) tok self + cash self (ps_backstop (px_p px)) tok b (map (pair (c_seq c)) e)) by lia.
  rewrite R; [lia|done| | |done].
  - intros a r Hr. unfold pool_load in Hr. cbn [ch_res] in Hr. by rewrite lookup_empty in Hr.
  - destruct T as [T1 T2]. split; [|exact T2]. intros u k r. rewrite T1. unfold vw. by destruct (Z.eqb_spec u from) as [->|].
Qed.

(** ** Everything else *)
Lemma flow_foreign a a' tok b seq e : a' <> a -> from_pool a' e -> flow_of a tok b (seq, e) = 0.
Proof. intros Ha. destruct e; try done; simpl; intros ->; unfold flow_of; cbn [snd]; by rewrite (proj2 (Z.eqb_neq a' a)). Qed.
Lemma cash_foreign a a' bs tok seq es : a' <> a -> Forall (from_pool a') es -> forall b, cash a bs tok b (map (pair seq) es) = 0.
Proof. intros Ha. induction 1 as [|e es He _ IH]; intros b; [done|]. cbn [map cash]. by rewrite (flow_foreign _ _ _ _ _ _ Ha He), IH. Qed.
Lemma unbooked_quiet e : unbooked e -> quiet e.
Proof. by destruct e. Qed.
Lemma mint_other t k to n t' tok v : to <> v -> mint t k to n = Ok t' -> balance t' tok v = balance t tok v.
Proof. intros Hv H. apply mint_spec in H as (_ & _ & _ & Hb). rewrite Hb, bool_decide_eq_false_2; [lia|by intros [_ ?]]. Qed.
Lemma em_mint_other x to n x' tok v : to <> v -> em_mint x to n = Ok x' -> balance (x_tok x') tok v = balance (x_tok x) tok v.
Proof. unfold em_mint. intros Hv H. mon H. simpl. by eapply mint_other. Qed.
Lemma mints_other l tok v : v ∉ l.*1 -> forall x x', foldM (fun x p => em_mint x p.1 p.2) x l = Ok x' -> balance (x_tok x') tok v = balance (x_tok x) tok v.
Proof.
  intros Hv. induction l as [|e l IH]; intros x x' E; cbn [foldM] in E; [by apply Ok_inj in E as <-|].
  apply bind_ok in E as (x1 & E1 & E). cbn in Hv. apply not_elem_of_cons in Hv as [Hv1 Hv2]. rewrite (IH Hv2 _ _ E). eapply em_mint_other; [|exact E1]. congruence.
Qed.
Lemma drop_other c x l x' tok v : v ∉ l.*1 -> em_drop c x l = Ok x' -> balance (x_tok x') tok v = balance (x_tok x) tok v.
Proof.
  unfold em_drop. intros Hv H. mon H. simpl. match goal with E : foldM (fun x p => em_mint _ _ _) _ _ = Ok _ |- _ => exact (mints_other _ tok v Hv _ _ E) end.
Qed.
Lemma distribute_other c x b n x' tok v : b <> v -> em_execute_distribute c x b = Ok (n, x') -> balance (x_tok x') tok v = balance (x_tok x) tok v.
Proof. unfold em_execute_distribute. intros Hv H. mon H. match goal with E : em_mint _ _ _ = Ok _ |- _ => apply (em_mint_other _ _ _ _ tok v Hv) in E; exact E end. Qed.
Lemma spend_other c t k sp f to n t' tok v : noallow t -> v < 0 -> to <> v -> transfer_from c t k sp f to n = Ok t' -> balance t' tok v = balance t tok v.
Proof.
  intros Hn Hv Ht H. apply transfer_from_spec in H as (Ha & _ & Hk & Hk2 & t1 & Hb & Hm). replace (balance t tok v) with (balance t1 tok v) by (unfold balance; by rewrite Hb).
  destruct (decide (f = v)) as [->|Hne]; [|exact (move_other t1 k f to n t' tok v Hne Ht Hm)].
  apply tok_move_spec in Hm as (H1 & _ & _ & Hbal & _). rewrite Hbal. unfold allowance in Ha. rewrite Hn in Ha by done. repeat case_bool_decide; destruct_and?; subst; try congruence; lia.
Qed.
Lemma approve_bal c t k f s n l t' tok v : approve c t k f s n l = Ok t' -> balance t' tok v = balance t tok v.
Proof. unfold approve. intros H. mon H. done. Qed.
Lemma x_exec_other v w sg o out x' tok : reachable w -> v < 0 -> forallb ok_signer sg = true -> ~ gift w v (OExt sg o) ->
  x_exec (ctx w sg) (w_ext w) o = Ok (out, x') -> balance (x_tok x') tok v = balance (x_tok (w_ext w)) tok v.
Proof.
  intros Hr Hv Hsg0 Hg E. pose proof (reachable_noallow _ Hr) as Hn.
  assert (forall a, mem_addr a sg = true -> 3 < a) as Hsg.
  { intros a Ha. apply mem_addr_elem in Ha. by eapply signer_pos. }
  assert (forall t k f to n t', transfer (ctx w sg) t k f to n = Ok t' -> to <> v -> balance t' tok v = balance t tok v) as Htr.
  { intros t k f to n t' H Ht. apply transfer_move in H as [Ha H]. simpl in Ha. apply Hsg in Ha. eapply move_other; [| |exact H]; [lia|done]. }
  destruct o; simpl in E; unfold ret_unit, ret_z in E; mon E; simpl; simpl in Hg.
  - unfold em_initialize in E0. by mon E0.
  - unfold em_distribute in E0. mon E0. by eapply distribute_other.
  - unfold em_queue_swap in E0. by mon E0.
  - unfold em_cancel_swap in E0. by mon E0.
  - unfold em_swap_backstop in E0. mon E0. simpl. by eapply distribute_other.
  - by eapply drop_other.
  - unfold fa_initialize in E0. by mon E0.
  - unfold b_initialize in E0. by mon E0.
  - unfold b_deposit in E0. mon E0.
    match goal with E : b_emissions _ _ _ _ _ _ _ = Ok _ |- _ => apply emis_frame_b in E as (? & ? & ->) end. simpl in *. eapply Htr; [eassumption|]. unfold bs_addr. lia.
  - unfold b_queue in E0. mon E0.
    match goal with E : b_emissions _ _ _ _ _ _ _ = Ok _ |- _ => by apply emis_frame_b in E as (? & ? & ->) end.
  - unfold b_dequeue in E0. mon E0.
    match goal with E : b_emissions _ _ _ _ _ _ _ = Ok _ |- _ => by apply emis_frame_b in E as (? & ? & ->) end.
  - unfold b_withdraw in E0. mon E0. simpl. apply need_auth_ok in E. simpl in E. apply Hsg in E.
    match goal with E : transfer _ _ _ _ _ _ = Ok _ |- _ => apply transfer_move in E as [_ E]; eapply move_other; [| |exact E] end; unfold bs_addr; lia.
  - by eapply draw_till.
  - eapply donate_till; [done| |eassumption]. unfold b_donate in E0. mon E0. apply need_auth_ok in E. simpl in E. apply Hsg in E. lia.
  - unfold b_update_tkn_val in E0. by mon E0.
  - unfold b_drop in E0. mon E0. simpl. match goal with E : em_drop _ _ _ = Ok _ |- _ => eapply drop_other; [|exact E] end. intros Hin. apply Hg. eexists. split; [|exact Hin]. unfold unwrap_or, unwrap in *. by destruct (bs_drop _); simplify_eq.
  - unfold b_add_reward in E0. mon E0. destruct (_ <? _); by mon E0.
  - by rewrite (gulp_tok _ _ _ _ E0).
  - unfold b_gulp_pool in E0. mon E0. simpl. by eapply approve_bal.
  - unfold b_claim in E0. mon1 E0. mon1 E0. apply bind_ok in E0 as ([[n1 m1] x1] & H1 & H2). pose proof (claim_loop_fields _ _ _ _ _ H1) as Hbf. 
    apply claim_loop_tok in H1. rewrite <- H1. destruct (0 <? n1); mon H2; [|done].
    match goal with E : foldM (claim_dep _ _ _ _) _ _ = Ok _ |- _ => apply (foldM_rel (fun y z => x_tok z = x_tok y)) in E; [rewrite E| done | congruence |] end.
    + simpl. match goal with E : mint _ _ _ _ = Ok _ |- _ => apply (mint_other _ _ _ _ _ tok v) in E; [rewrite E|unfold bs_addr; lia] end.
      match goal with E : tok_move _ _ _ _ _ = Ok _ |- _ => eapply move_other; [| |exact E] end; [unfold bs_addr; lia|]. destruct Hbf as (_ & _ & Hbt & _). cbn [snd] in Hbt. rewrite Hbt. done.
    + intros s a s' _ E'. unfold claim_dep in E'. by mon E'.
  - by eapply Htr.
  - by eapply approve_bal.
  - by eapply spend_other.
  - unfold burn in E0. mon E0. apply need_auth_ok in E. simpl in E. apply Hsg in E. unfold balance, set_balance. simpl. rewrite lookup_insert_ne; [done|]. intros [= ->]. lia.
  - by eapply mint_other.
Qed.

(** another pool's calls *)
Lemma requests_other c self from v qs tok : v < 0 -> self <> v -> from <> v -> forall s s', foldM (do_request c self from) s qs = Ok s' -> balance (x_tok (lo_x s')) tok v = balance (x_tok (lo_x s)) tok v.
Proof.
  intros Hv Hs Hf. induction qs as [|q qs IH]; cbn [foldM]; intros s s' H; [by apply Ok_inj in H as <-|]. apply bind_ok in H as (s1 & H1 & H). rewrite (IH _ _ H). clear IH H.
  unfold do_request in H1. cbv zeta in H1. apply bind_ok in H1 as (? & _ & H1). apply bind_ok in H1 as (? & _ & H1).
  assert (forall t chk, do_fill c self from t chk s q = Ok s1 -> t = 0 \/ t = 1 \/ t = 2 -> balance (x_tok (lo_x s1)) tok v = balance (x_tok (lo_x s)) tok v) as HF.
  { clear H1. intros t chk H Ht. unfold do_fill in H. apply bind_ok in H as ([[[p ch] pos] x2] & Hfi & H). apply Ok_inj in H as <-. cbn [lo_x].
    unfold fill in Hfi. apply assert_ok in Hfi as [_ Hfi]. apply bind_ok in Hfi as (au & Hau & Hfi). apply bind_ok in Hfi as ([tf rem] & Hsc & Hfi).
    apply bind_ok in Hfi as ([[[p1 ch1] pos1] x3] & Hk & Hfi). cbv zeta in Hfi. assert (x3 = x2) as -> by (apply Ok_inj in Hfi; by injection Hfi). clear Hfi.
    destruct Ht as [->|[->| ->]]; cbn [Z.eqb Pos.eqb] in Hk; cbv beta iota in Hk.
    - apply bind_ok in Hk as (s2 & _ & Hk). apply Ok_inj in Hk. by injection Hk as _ <-.
    - unfold fill_bad_debt in Hk. cbv zeta in Hk. apply assert_ok in Hk as [_ Hk]. apply bind_ok in Hk as ([[p2 ch2] bpos] & _ & Hk). apply bind_ok in Hk as ([[p3 ch3] fpos] & _ & Hk).
      apply bind_ok in Hk as (btok & _ & Hk). apply bind_ok in Hk as (lot & _ & Hk). apply bind_ok in Hk as (x4 & Hd & Hk). apply (draw_till _ _ _ _ _ _ tok v) in Hd; [|done|done]. rewrite <- Hd.
      destruct (bool_decide (po_liab bpos = ∅)); [by apply Ok_inj in Hk; injection Hk as _ _ _ <-|]. apply bind_ok in Hk as (pd & _ & Hk). destruct (threshold pd <? 3).
      + apply bind_ok in Hk as (m & _ & Hk). apply bind_ok in Hk as ([[p4 ch4] bpos4] & _ & Hk). apply Ok_inj in Hk. injection Hk as _ _ _ <-. by rewrite burns_tok.
      + apply Ok_inj in Hk. by injection Hk as _ _ _ <-.
    - apply bind_ok in Hk as ([ch2 x4] & Hk & Hx). apply Ok_inj in Hx. injection Hx as _ _ _ <-. unfold fill_interest in Hk. apply assert_ok in Hk as [_ Hk].
      apply bind_ok in Hk as (btok & _ & Hk). apply bind_ok in Hk as (bid & _ & Hk). apply bind_ok in Hk as (x5 & Hd & Hk). apply (donate_till _ _ _ _ _ _ tok v) in Hd; [|done|done]. rewrite <- Hd.
      apply (foldM_ok_frame (fun a b => balance (x_tok b.2) tok v = balance (x_tok a.2) tok v)) in Hk; [exact Hk|done|congruence|].
      intros [ch5 x6] e s6 H6. unfold interest_fill_one in H6. apply bind_ok in H6 as ([r chr] & _ & H6). apply bind_ok in H6 as (cr & _ & H6). cbv zeta in H6. apply bind_ok in H6 as (t & Ht & H6). apply Ok_inj in H6 as <-. cbn [snd].
      change (x_tok (x6 <| x_tok := t |>)) with t. apply transfer_move in Ht as [_ Ht]. exact (move_other _ _ _ _ _ _ tok v Hs Hf Ht). }
  assert (forall a f n, plain_step (c_now c) from s s1 a f n -> balance (x_tok (lo_x s1)) tok v = balance (x_tok (lo_x s)) tok v) as HP by (intros a f n (? & ? & ? & _ & _ & -> & _); done).
  destruct (rq_type q) as [|k|k]; [|do 4 (try (destruct k as [k|k|]; try discriminate H1))|discriminate H1].
  all: first
    [ apply (supply_step _ _ _ _ _ (VSupply self (rq_addr q) from)) in H1 as (n & _ & Hp); exact (HP _ _ _ Hp)
    | apply (supply_coll_step _ _ _ _ _ (VSupplyColl self (rq_addr q) from)) in H1 as (n & _ & Hp); exact (HP _ _ _ Hp)
    | apply (withdraw_step _ _ _ _ _ (VWithdraw self (rq_addr q) from)) in H1 as (amt & n & _ & Hp); exact (HP _ _ _ Hp)
    | apply (withdraw_coll_step _ _ _ _ _ (VWithdrawColl self (rq_addr q) from)) in H1 as (amt & n & _ & Hp); exact (HP _ _ _ Hp)
    | apply (borrow_step _ _ _ _ _ (VBorrow self (rq_addr q) from)) in H1 as (n & _ & Hp); exact (HP _ _ _ Hp)
    | apply (repay_step _ _ _ _ _ (VRepay self (rq_addr q) from)) in H1 as (amt & n & _ & Hp); exact (HP _ _ _ Hp)
    | apply (HF 0 true H1); auto | apply (HF 1 true H1); auto | apply (HF 2 false H1); auto
    | idtac ].
  unfold do_delete in H1. apply bind_ok in H1 as (p1 & _ & H1). by apply Ok_inj in H1 as <-.
Qed.
Lemma p_exec_other c self px po out px' v tok : v < 0 -> (forall a, c_auth c a = true -> 3 < a) -> noallow (x_tok (px_x px)) -> p_exec c self px po = Ok (out, px') ->
  (match po with PSubmit _ _ to _ => self <> v /\ to <> v | PClaim _ _ to => to <> v | _ => True end) -> balance (x_tok (px_x px')) tok v = balance (x_tok (px_x px)) tok v.
Proof.
  intros Hv Hc Hn H Hg. destruct po.
  7:{ unfold p_exec in H. cbv zeta in H. apply assert_ok in H as [_ H]. apply bind_ok in H as ([pos px1] & H & Hx). apply Ok_inj in Hx. injection Hx as _ <-. destruct Hg as [Hs Ht].
    unfold p_submit in H. apply bind_ok in H as (u1 & A1 & H). apply bind_ok in H as (u2 & A2 & H). apply assert_ok in H as [_ H]. cbv zeta in H.
    apply need_auth_ok, Hc in A1. assert (3 < from) as Hf.
    { destruct (Z.eqb_spec from spender) as [->|]; [done|]. by apply need_auth_ok, Hc in A2. }
    apply bind_ok in H as (s & Hb & H). apply bind_ok in H as (ch & _ & H). apply bind_ok in H as (t1 & Ht1 & H). apply bind_ok in H as (p & _ & H). apply bind_ok in H as (t2 & Ht2 & H). apply Ok_inj in H. injection H as _ <-.
    unfold build_actions in Hb. apply bind_ok in Hb as (s' & Hb & Hx). apply bind_ok in Hx as (? & _ & Hx). apply Ok_inj in Hx as ->.
    cbn [px_x]. change (x_tok (lo_x s <| x_tok := t2 |>)) with t2. rewrite (transfer_all_spec _ _ _ _ _ _ Ht2), (transfer_all_spec _ _ _ _ _ _ Ht1).
    rewrite (proj2 (Z.eqb_neq v self)), (proj2 (Z.eqb_neq v to)), (proj2 (Z.eqb_neq v spender)) by lia.
    apply (requests_other _ _ _ v _ tok) in Hb; [|done|done|lia]. cbn [lo_x] in Hb. rewrite Hb. lia. }
  all: simpl in H; unfold on_pool, ret_z in H; mon H; simpl; try done.
  - unfold p_gulp in E. mon E. simpl. unfold to_backstop in *. mon E0. unfold b_gulp_pool in E0. mon E0. simpl. by eapply approve_bal.
  - unfold p_claim in E. mon E. destruct (0 <? _); mon E; [|done]. simpl. by eapply spend_other.
Qed.

Lemma pool_quiet c self p x o out p' es : (forall f s t qs, o <> PSubmit f s t qs) -> pool_ev c self p x o out p' = Ok es -> Forall quiet es.
Proof.
  intros Hn H. destruct o; try (exfalso; eapply Hn; reflexivity); cbn [pool_ev] in H.
  all: try by eapply debts_quiet.
  all: destruct out; try (apply Ok_inj in H as <-; repeat constructor; fail).
  apply bind_ok in H as (e1 & H1 & H). apply Ok_inj in H as <-. apply Forall_app. split; [|by repeat constructor]. eapply Forall_impl; [by eapply gulp_unbooked|]. apply unbooked_quiet.
Qed.
Lemma exec_cash w o out w' a bs b tok : reachable w -> a < 0 -> exec w o = Ok (out, w') -> (ps_init (pool w a) = true -> ps_backstop (pool w a) = bs) -> pool_tells (pool w a) b ->
  let d := cash a bs tok b (map (pair (w_seq w)) (events w o)) in
  held w tok a + d <= held w' tok a /\ (~ gift w a o -> held w' tok a = held w tok a + d).
Proof.
  intros Hr Ha H Hbs T. cbv zeta. pose proof (reachable_noallow _ Hr) as Hna. destruct (C82_events_defined _ _ _ _ Hr H) as [es Hes]. unfold events. rewrite H, Hes.
  assert ((forall b', cash a bs tok b' (map (pair (w_seq w)) es) = 0) -> held w tok a <= held w' tok a -> (~ gift w a o -> held w' tok a = held w tok a) ->
    held w tok a + cash a bs tok b (map (pair (w_seq w)) es) <= held w' tok a /\ (~ gift w a o -> held w' tok a = held w tok a + cash a bs tok b (map (pair (w_seq w)) es))) as HQ.
  { intros E H1 H2. rewrite E, Z.add_0_r. done. }
  assert ((exists sg po, o = OPool sg a po) \/ forall sg po, o <> OPool sg a po) as [(sg & po & ->)|Hno'].
  { destruct o as [| sg a1 po | | | | | | | |]; try (right; intros; discriminate). destruct (Z.eq_dec a1 a) as [->|]; [left; eauto|right; congruence]. }
  - pose proof H as H'. cbn [exec] in H'. apply assert_ok in H' as [G H']. apply andb_prop in G as [G _]. apply bind_ok in H' as (p & Hp & H'). apply bind_ok in H' as ([o1 px] & Hx & H'). apply Ok_inj in H'. injection H' as <- <-.
    assert (p = pool w a) as -> by (unfold pool; destruct (w_pools w !! a); [by injection Hp as ->|done]).
    cbn [op_ev] in Hes. rewrite Hp in Hes. cbn [bind] in Hes. apply bind_ok in Hes as (p' & _ & Hes).
    assert (forall u, c_auth (ctx w sg) u = true -> 3 < u) as Hc by (intros u Hu; simpl in Hu; apply mem_addr_elem in Hu; by eapply signer_pos).
    assert ((exists f s t qs, po = PSubmit f s t qs) \/ forall f s t qs, po <> PSubmit f s t qs) as [(f & s & t & qs & ->)|Hns] by (destruct po; try (right; intros; discriminate); left; eauto 10).
    + cbn [p_exec] in Hx. unfold p_exec in Hx. cbv zeta in Hx. apply assert_ok in Hx as [Hi Hx]. cbn [px_p] in Hi. apply bind_ok in Hx as ([pos px1] & Hx & H1). apply Ok_inj in H1. injection H1 as _ <-.
      specialize (Hbs Hi). cbn [pool_ev] in Hes. assert (Wf (pool w a)) as W by (split; [apply (reachable_good _ _ Hr Hi)|done]).
      pose proof (submit_cash _ _ _ _ _ _ _ _ _ _ b tok Hx Ha W T Hes) as Hsc. cbn [px_p px_x] in Hsc. rewrite Hbs in Hsc. unfold held. change (c_seq (ctx w sg)) with (w_seq w) in Hsc.
      change (w_ext (w <| w_pools := <[a := px_p px1]> (w_pools w) |> <| w_ext := px_x px1 |>)) with (px_x px1). rewrite Hsc. split; [lia|done].
    + apply HQ.
      * intros b'. apply cash_quiet. by eapply pool_quiet.
      * destruct (p_exec_xsafe _ _ _ _ _ _ Ha Hx Hns) as [S _]. unfold held. change (w_ext (w <| w_pools := <[a := px_p px]> (w_pools w) |> <| w_ext := px_x px |>)) with (px_x px). apply (proj2 (S Hna)).
      * intros Hg. unfold held. change (w_ext (w <| w_pools := <[a := px_p px]> (w_pools w) |> <| w_ext := px_x px |>)) with (px_x px).
        refine (p_exec_other _ _ _ _ _ _ a tok Ha Hc _ Hx _); [exact Hna|]. destruct po; try done. by exfalso; eapply Hns.
  - pose proof (exec_xsafe a _ _ _ _ Hr Ha Hno' H) as [S _]. specialize (S Hna) as [_ S]. specialize (S tok). apply HQ; [|exact S|].
    + destruct o as [sg xo|sg a1 po|sg ad salt orc rate mp|b0|dt ds|orc|n|b0 t u|b0 r|]; cbn [op_ev] in Hes; try (apply Ok_inj in Hes as <-; intros b'; apply cash_quiet; repeat constructor; fail).
      * intros b'. apply cash_quiet. eapply Forall_impl; [by eapply ext_unbooked|]. apply unbooked_quiet.
      * apply bind_ok in Hes as (p & _ & Hes). apply bind_ok in Hes as (p' & _ & Hes). apply (cash_foreign _ a1); [intros ->; by apply (Hno' sg po)|by eapply pool_from].
    + intros Hg. unfold held. pose proof H as H'. unfold exec in H'. destruct o as [sg xo|sg a1 po|sg ad salt orc rate mp|b0|dt ds|orc|n|b0 t u|b0 r|].
      * apply assert_ok in H' as [G H']. apply andb_prop in G as [G _]. apply bind_ok in H' as ([o1 x1] & Hx & H'). apply Ok_inj in H'. injection H' as <- <-. by eapply x_exec_other.
      * apply assert_ok in H' as [G H']. apply andb_prop in G as [G _]. apply bind_ok in H' as (p & Hp & H'). apply bind_ok in H' as ([o1 px] & Hx & H'). apply Ok_inj in H'. injection H' as <- <-.
        change (w_ext (w <| w_pools := <[a1 := px_p px]> (w_pools w) |> <| w_ext := px_x px |>)) with (px_x px).
        assert (forall u, c_auth (ctx w sg) u = true -> 3 < u) as Hc by (intros u Hu; simpl in Hu; apply mem_addr_elem in Hu; by eapply signer_pos).
        refine (p_exec_other _ _ _ _ _ _ a tok Ha Hc _ Hx _); [exact Hna|]. assert (a1 <> a) as Hne by (intros ->; by apply (Hno' sg po)). destruct po; try done. split; [done|]. intros ->. by apply Hg.
      * mon H'. destruct (w_pools w !! _); [done|]. by mon H'.
      * mon H'. destruct (w_pools w !! _); [done|]. by mon H'.
      * by mon H'.
      * by mon H'.
      * by mon H'.
      * by mon H'.
      * by mon H'.
      * by mon H'.
Qed.
Lemma log_cash a bs tok l : forall w b, reachable w -> a < 0 -> (ps_init (pool (run w l) a) = true -> ps_backstop (pool (run w l) a) = bs) -> pool_tells (pool w a) b ->
  held w tok a + cash a bs tok b (event_log w l) <= held (run w l) tok a /\
  ((forall l1 o l2, l = l1 ++ o :: l2 -> ~ gift (run w l1) a o) -> held (run w l) tok a = held w tok a + cash a bs tok b (event_log w l)).
Proof.
  induction l as [|o l IH]; intros w b Hr Ha Hbs T; [cbn [event_log cash]; change (run w []) with w; split; [lia|intros _; lia]|].
  cbn [event_log]. rewrite cash_app. change (map (fun e => (w_seq w, e)) (events w o)) with (map (pair (w_seq w)) (events w o)). change (run w (o :: l)) with (run (step w o) l) in *.
  assert (ps_init (pool w a) = true -> ps_backstop (pool w a) = bs) as Hb0.
  { intros Hi. destruct (C61_initialized_once w (o :: l)) as (_ & _ & _ & H). apply H in Hi as (Hi & Hb & _). change (run w (o :: l)) with (run (step w o) l) in *. rewrite <- Hb. by apply Hbs. }
  assert (pool_tells (pool (step w o) a) (fold_left (book a bs) (map (pair (w_seq w)) (events w o)) b) /\
    (held w tok a + cash a bs tok b (map (pair (w_seq w)) (events w o)) <= held (step w o) tok a /\ (~ gift w a o -> held (step w o) tok a = held w tok a + cash a bs tok b (map (pair (w_seq w)) (events w o))))) as (T1 & S1 & S2).
  { unfold step. destruct (exec w o) as [[out w']|e] eqn:E; [split; [by eapply step_tells|by eapply exec_cash]|]. unfold events. rewrite E. split; [exact T|]. cbn [map cash]. split; [lia|intros _; lia]. }
  destruct (IH (step w o) _ (reachable_run w [o] Hr) Ha Hbs T1) as [I1 I2]. split; [lia|]. intros Hg. rewrite I2, S2; [lia|by apply (Hg [] o l)|].
  intros l1 o' l2 ->. apply (Hg (o :: l1) o' l2). done.
Qed.

(** ** C84: a pool's holdings of any token move exactly as its events say, plus whatever others send it unasked. *)
Theorem C84_tokens_follow_events w l a b tok : reachable w -> ps_init (pool (run w l) a) = true -> book_right w a b ->
  let d := cash a (ps_backstop (pool (run w l) a)) tok b (event_log w l) in
  held w tok a + d <= held (run w l) tok a /\
  ((forall l1 o l2, l = l1 ++ o :: l2 -> ~ gift (run w l1) a o) -> held (run w l) tok a = held w tok a + d).
Proof.
  rewrite right_tells. intros Hr Hi T. apply log_cash; [done| |done|done].
  pose proof (reachable_run w l Hr) as Hr'. unfold pool in Hi. destruct (w_pools (run w l) !! a) eqn:E; [|done]. by eapply pools_neg.
Qed.
