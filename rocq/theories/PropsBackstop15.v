(** * Only pools deployed by the backstop's factory hold anything in the backstop (C87) *)
From Verif Require Import Base Types Token Emitter Factory Backstop PoolReserve PoolUser PoolHealth
  PoolAuction PoolSubmit PoolEmis PoolAdmin World Facts XMove Spec FrameFacts PoolFrame PoolCfg BackMoves BackInv BackEmis
  PropsEmitter PropsAdmin PropsBackstop PropsBackstop3 PropsBackstop4 PropsAdmin3 PropsToken PropsBackstop5 PropsBackstop6 PropsBackstop8 PropsBackstop9.

(** ** The invariant *)
Definition reg (x : Ext) (p : Addr) : Prop :=
  bs_init (x_bs x) = true /\ bs_factory (x_bs x) = fac_addr /\ p ∈ fa_deployed (x_fac x).
Definition clean (x : Ext) (p : Addr) : Prop :=
  pb_tokens (get_pb x p) = 0 /\ pb_shares (get_pb x p) = 0 /\ p ∉ bs_rz (x_bs x) /\ get_pemis x p = 0 /\ bs_ecfg (x_bs x) !! p = None /\
  forall K, gr K x p = 0.
(** a change that respects it *)
Definition fair (x x' : Ext) : Prop := (forall p, reg x p -> reg x' p) /\ forall p, ~ reg x' p -> clean x p -> clean x' p.
Lemma fair_refl x : fair x x. Proof. split; auto. Qed.
Lemma fair_trans x y z : fair x y -> fair y z -> fair x z.
Proof. intros [R1 C1] [R2 C2]. split; [auto|]. intros p Hn Hc. apply C2; [done|]. apply C1; [|done]. intros Hy. by apply Hn, R2. Qed.
(** nothing the invariant mentions changes *)
Definition stays (x x' : Ext) : Prop :=
  (bs_init (x_bs x') = bs_init (x_bs x) /\ bs_factory (x_bs x') = bs_factory (x_bs x) /\ fa_deployed (x_fac x') = fa_deployed (x_fac x)) /\
  bs_pool (x_bs x') = bs_pool (x_bs x) /\ bs_rz (x_bs x') = bs_rz (x_bs x) /\ bs_pemis (x_bs x') = bs_pemis (x_bs x) /\
  bs_ecfg (x_bs x') = bs_ecfg (x_bs x) /\ forall K p, tk_allow (x_tok x') !! (K, bs_addr, p) = tk_allow (x_tok x) !! (K, bs_addr, p).
Lemma stays_fair x x' : stays x x' -> fair x x'.
Proof.
  intros ((E1 & E2 & E3) & E4 & E5 & E6 & E7 & E8). split; [intros p; unfold reg; by rewrite E1, E2, E3|].
  intros p _. unfold clean, get_pb, get_pemis, gr. rewrite E4, E5, E6, E7. intros (H1 & H2 & H3 & H4 & H5 & H6). repeat split; try done. intros K. rewrite E8. apply H6.
Qed.
Lemma stays_tok x t : (forall K p, tk_allow t !! (K, bs_addr, p) = tk_allow (x_tok x) !! (K, bs_addr, p)) -> stays x (x <| x_tok := t |>).
Proof. intros H. repeat split; done. Qed.
Lemma stays_move x k from to n t : tok_move (x_tok x) k from to n = Ok t -> stays x (x <| x_tok := t |>).
Proof. intros H. apply tok_move_spec in H as (_ & Ha & _). apply stays_tok. intros K p. by rewrite Ha. Qed.
Lemma stays_emis x x' : emis_frame x x' -> stays x x'.
Proof. intros (e & u & ->). repeat split; done. Qed.
(** the balance of one pool is written *)
Lemma fair_pb x p pb : (reg x p \/ (clean x p -> pb_tokens (get_pb x p) = 0 -> pb_shares (get_pb x p) = 0 -> pb_tokens pb = 0 /\ pb_shares pb = 0)) -> fair x (set_pb x p pb).
Proof.
  intros H. split; [done|]. intros q Hq Hc. pose proof Hc as Hc'. unfold clean in *. change (get_pemis (set_pb x p pb) q) with (get_pemis x q).
  change (bs_rz (x_bs (set_pb x p pb))) with (bs_rz (x_bs x)). change (bs_ecfg (x_bs (set_pb x p pb))) with (bs_ecfg (x_bs x)).
  destruct Hc as (H1 & H2 & H3 & H4 & H5 & H6). assert (pb_tokens (get_pb (set_pb x p pb) q) = 0 /\ pb_shares (get_pb (set_pb x p pb) q) = 0) as [? ?]; [|by repeat split].
  destruct (decide (q = p)) as [->|Hne].
  - unfold get_pb at 1 2. simpl. rewrite lookup_insert. simpl. destruct H as [H|H]; [by destruct Hq|]. by apply (H Hc').
  - unfold get_pb. simpl. rewrite lookup_insert_ne by done. done.
Qed.
Lemma withdraw_zero pb t s pb' : pb_withdraw pb t s = Ok pb' -> 0 <= t -> 0 <= s -> pb_tokens pb = 0 -> pb_shares pb = 0 -> pb_tokens pb' = 0 /\ pb_shares pb' = 0.
Proof.
  unfold pb_withdraw. intros H Ht Hs E1 E2. apply assert_ok in H as [H0 H]. apply bind_ok in H as (a & Ha & H). apply bind_ok in H as (b & Hb & H). apply bind_ok in H as (q & _ & H).
  apply Ok_inj in H as <-. apply i128_ok in Ha as [-> _]. apply i128_ok in Hb as [-> _]. simpl.
  apply negb_true_iff in H0. apply orb_false_iff in H0 as [H0 _]. apply orb_false_iff in H0 as [A B]. apply Z.ltb_ge in A, B. lia.
Qed.
Lemma require_reg x a n : require_pool x a n = Ok tt -> n = 0 -> bs_init (x_bs x) = true -> reg x a.
Proof.
  unfold require_pool. intros H -> Hi. cbn [Z.eqb] in H. apply assert_ok in H as [Hf H]. apply Z.eqb_eq in Hf. unfold fa_is_pool in H.
  destruct (bool_decide _) eqn:E; [|done]. apply bool_decide_eq_true in E. done.
Qed.
Lemma nonneg_ok n u : b_nonneg n = Ok u -> 0 <= n.
Proof. unfold b_nonneg. intros H. destruct (n <? 0) eqn:E; [done|]. by apply Z.ltb_ge in E. Qed.
Lemma fair_spend c x k sp from to n t : transfer_from c (x_tok x) k sp from to n = Ok t -> fair x (x <| x_tok := t |>).
Proof.
  intros H. split; [done|]. intros p _ (H1 & H2 & H3 & H4 & H5 & H6). repeat split; try done. intros K. specialize (H6 K). unfold gr in *.
  change (x_tok (x <| x_tok := t |>)) with t. unfold transfer_from in H. mon H.
  apply tok_move_spec in H as (Hn & -> & _). destruct (tk_allow (x_tok x) !! (k, from, sp)) as [[v live]|] eqn:Ek; [|done]. destruct (n =? 0) eqn:En; [done|]. simpl.
  destruct (decide ((k, from, sp) = (K, bs_addr, p))) as [[= -> -> ->]|Hne]; [|by rewrite lookup_insert_ne].
  exfalso. rewrite Ek in H6. simpl in H6. subst v. apply Z.eqb_neq in En. unfold allowance in *. rewrite Ek in *. repeat match goal with Hx : context [if _ then 0 else 0] |- _ => destruct (live <? c_seq c) end; lia.
Qed.
Lemma fair_gulp_pool c x self n x' : b_gulp_pool c x self = Ok (n, x') -> fair x x'.
Proof.
  intros H. unfold b_gulp_pool in H. mon H. subst. match goal with H : negb (_ =? 0) = true |- _ => apply negb_true_iff, Z.eqb_neq in H end.
    split; [done|]. intros p Hp (H1 & H2 & H3 & H4 & H5 & H6). assert (p <> self) as Hne by (intros ->; done). repeat split; try done.
    + unfold get_pemis. simpl. rewrite lookup_insert_ne by done. exact H4.
    + intros K. specialize (H6 K). unfold gr in *. match goal with E : approve _ _ _ _ _ _ _ = Ok _ |- _ => unfold approve in E; mon E end. simpl. rewrite lookup_insert_ne; [done|]. by intros [= _ ->].
Qed.
Lemma fair_xmove c self x x' : c_auth c bs_addr = false -> self <> bs_addr -> xmove c self x x' -> fair x x'.
Proof.
  intros Hau Hs H. destruct H.
  - apply stays_fair. by eapply stays_move.
  - by eapply fair_spend.
  - unfold b_draw in H. mon H. subst. xfer. eapply fair_trans; [|apply stays_fair; eapply stays_move; exact Hm]. apply fair_pb. right. intros _.
    intros T S. match goal with E : b_nonneg _ = Ok _ |- _ => apply nonneg_ok in E end.
    match goal with E : pb_withdraw _ _ _ = Ok _ |- _ => refine (withdraw_zero _ _ _ _ E _ _ T S) end; done.
  - unfold b_donate in H. mon H. subst. xfer. try match goal with E : require_pool _ _ _ = Ok ?u |- _ => destruct u end.
    match goal with |- fair x (set_pb ?y self pb) => apply (fair_trans x y); [apply stays_fair; by eapply stays_move|]; apply fair_pb end.
    destruct (decide (pb_shares (get_pb x self) = 0)) as [Es|Es]; [left; by eapply require_reg|right; intros _ _ ?; done].
  - by eapply fair_gulp_pool.
  - by apply stays_fair.
Qed.
Lemma fair_xmoves c self x x' : c_auth c bs_addr = false -> self <> bs_addr -> xmoves c self x x' -> fair x x'.
Proof. intros Ha Hs H. induction H as [|x y z H _ IH]; [apply fair_refl|]. eapply fair_trans; [|exact IH]. by eapply fair_xmove. Qed.
(** the emitter's functions *)
Lemma stays_mint x to n x' : em_mint x to n = Ok x' -> stays x x'.
Proof. unfold em_mint. intros H. mon H. subst. match goal with E : mint _ _ _ _ = Ok _ |- _ => apply mint_spec in E as (_ & A & _) end. apply stays_tok. intros K p. by rewrite A. Qed.
Lemma stays_refl x : stays x x. Proof. repeat split; done. Qed.
Lemma stays_trans x y z : stays x y -> stays y z -> stays x z.
Proof.
  intros ((E1 & E2 & E3) & E4 & E5 & E6 & E7 & E8) ((F1 & F2 & F3) & F4 & F5 & F6 & F7 & F8).
  split; [repeat split; congruence|]. do 4 (split; [congruence|]). intros K p. by rewrite F8.
Qed.
Lemma stays_mints l : forall x x', foldM (fun x p => em_mint x p.1 p.2) x l = Ok x' -> stays x x'.
Proof.
  induction l as [|e l IH]; intros x x' H; cbn [foldM] in H; [apply Ok_inj in H as <-; apply stays_refl|].
  apply bind_ok in H as (y & H1 & H). eapply stays_trans; [by eapply stays_mint|by eapply IH].
Qed.
Lemma stays_distribute c x b n x' : em_execute_distribute c x b = Ok (n, x') -> stays x x'.
Proof. unfold em_execute_distribute. intros H. mon H. subst. eapply stays_trans; [|eapply stays_mint; eassumption]. repeat split; done. Qed.
Lemma stays_drop c x l x' : em_drop c x l = Ok x' -> stays x x'.
Proof.
  unfold em_drop. intros H. mon H. subst. match goal with E : foldM (fun x p => em_mint _ _ _) _ _ = Ok _ |- _ => apply stays_mints in E; eapply stays_trans; [exact E|] end. repeat split; done.
Qed.
(** a distribution writes the records of the pools in the zone only *)
Definition zoned (l : list Addr) (x x' : Ext) : Prop :=
  (bs_init (x_bs x') = bs_init (x_bs x) /\ bs_factory (x_bs x') = bs_factory (x_bs x) /\ x_fac x' = x_fac x) /\
  bs_pool (x_bs x') = bs_pool (x_bs x) /\ bs_rz (x_bs x') = bs_rz (x_bs x) /\ x_tok x' = x_tok x /\
  forall p, p ∉ l -> bs_pemis (x_bs x') !! p = bs_pemis (x_bs x) !! p /\ bs_ecfg (x_bs x') !! p = bs_ecfg (x_bs x) !! p.
Lemma zoned_refl l x : zoned l x x. Proof. repeat split; done. Qed.
Lemma zoned_trans l x y z : zoned l x y -> zoned l y z -> zoned l x z.
Proof.
  intros ((E1 & E2 & E3) & E4 & E5 & E6 & E7) ((F1 & F2 & F3) & F4 & F5 & F6 & F7).
  repeat split; try congruence; destruct (E7 p), (F7 p); try done; congruence.
Qed.
Lemma zoned_emis l x x' : emis_frame x x' -> zoned l x x'.
Proof. intros (e & u & ->). repeat split; done. Qed.
Lemma zoned_ecfg c x p pb n x' l : p ∈ l -> b_set_ecfg c x p pb n = Ok x' -> zoned l x x'.
Proof.
  intros Hp H. unfold b_set_ecfg in H. apply bind_ok in H as ([lft y] & H1 & H). mon H. subst.
  apply (zoned_trans l x y).
  - destruct (bs_ecfg (x_bs x) !! p) as [cfg|]; [|apply Ok_inj in H1; injection H1 as <- <-; by apply zoned_emis].
    apply bind_ok in H1 as ([d z] & Hd & H1). apply emis_frame_data in Hd. cbv zeta in H1.
    assert (zoned l x (if negb (ed_last d =? c_now c) then set_bedata z p (mkEmisData (ed_index d) (c_now c)) else z)) as HZ.
    { destruct (negb _); apply zoned_emis; [eapply emis_frame_trans; [exact Hd|done]|done]. }
    revert H1 HZ. generalize (if negb (ed_last d =? c_now c) then set_bedata z p (mkEmisData (ed_index d) (c_now c)) else z). intros z' H1 HZ.
    destruct (c_now c <? ec_exp cfg); [|apply Ok_inj in H1; by injection H1 as _ <-].
    apply bind_ok in H1 as (? & _ & H1). apply bind_ok in H1 as (? & _ & H1). apply bind_ok in H1 as (? & _ & H1). apply Ok_inj in H1. by injection H1 as _ <-.
  - repeat split; try done. simpl. apply lookup_insert_ne. intros ->. done.
Qed.
Lemma zoned_gulp_one c tot tp tb x p x' l : p ∈ l -> gulp_one c tot tp tb x p = Ok x' -> zoned l x x'.
Proof.
  intros Hp H. unfold gulp_one in H. mon H. subst. match goal with E : b_set_ecfg _ _ _ _ _ = Ok _ |- _ => apply (zoned_ecfg _ _ _ _ _ _ l Hp) in E as HZ end.
  match type of HZ with zoned _ ?a ?b => apply (zoned_trans l x a); [|apply (zoned_trans l a b); [exact HZ|by repeat split]] end.
  repeat split; try done. simpl. apply lookup_insert_ne. intros ->. done.
Qed.
Lemma zoned_fair x x' : zoned (bs_rz (x_bs x)) x x' -> fair x x'.
Proof.
  intros ((E1 & E2 & E3) & E4 & E5 & E6 & E7). split; [intros p; unfold reg; by rewrite E1, E2, E3|].
  intros p _. unfold clean, get_pb, get_pemis, gr. rewrite E4, E5, E6. intros (H1 & H2 & H3 & H4 & H5 & H6). destruct (E7 p H3) as [-> ->]. done.
Qed.
Lemma fair_gulp c x n x' : b_gulp c x = Ok (n, x') -> fair x x'.
Proof.
  intros H. unfold b_gulp in H. mon H. subst.
  assert (forall c0 a b d L l, (forall q, q ∈ l -> q ∈ L) -> forall y x', foldM (gulp_one c0 a b d) y l = Ok x' -> zoned L y x') as HL.
  { clear. intros c0 a b d L l. induction l as [|q l IH]; intros Hl y z H; cbn [foldM] in H; [apply Ok_inj in H as <-; apply zoned_refl|].
    apply bind_ok in H as (y1 & H1 & H). eapply zoned_trans; [eapply zoned_gulp_one; [|exact H1]; apply Hl; by left|]. eapply IH; [|exact H]. intros q' Hq. apply Hl. by right. }
  match goal with E : foldM (gulp_one _ _ _ _) ?y ?l = Ok _ |- _ => apply (HL _ _ _ _ l l) in E; [|done]; apply (fair_trans x y); [apply stays_fair; repeat split; done|apply zoned_fair; exact E] end.
Qed.
Lemma stays_get x y p : stays x y -> get_pb y p = get_pb x p /\ (reg x p -> reg y p).
Proof. intros ((E1 & E2 & E3) & E4 & _). unfold get_pb, reg. by rewrite E1, E2, E3, E4. Qed.
Lemma fair_deposit c x f p n m x' : b_deposit c x f p n = Ok (m, x') -> fair x x'.
Proof.
  intros H. unfold b_deposit in H. mon H. subst. xfer. try match goal with E : require_pool _ _ _ = Ok ?u |- _ => destruct u end.
  match goal with |- fair x (set_ub (set_pb ?y ?p ?pb) _ _ _) => assert (stays x y) as HS end.
  { eapply stays_trans; [eapply stays_emis, emis_frame_b; eassumption|]. by eapply stays_move. }
  destruct (stays_get _ _ p HS) as [HG R].
  match goal with |- fair x (set_ub (set_pb ?y ?p ?pb) _ _ _) => apply (fair_trans x y); [by apply stays_fair|apply (fair_trans y (set_pb y p pb)); [|by apply stays_fair; repeat split]] end.
  apply fair_pb. rewrite HG.
  destruct (decide (pb_shares (get_pb x p) = 0)) as [Es|Es]; [left; apply R; by eapply require_reg|right; done].
Qed.
Lemma fair_queue c x f p n q x' : b_queue c x f p n = Ok (q, x') -> fair x x'.
Proof.
  intros H. unfold b_queue in H. mon H. subst.
  match goal with E : b_emissions _ _ _ _ _ _ _ = Ok (_, ?y) |- _ => apply emis_frame_b, stays_emis in E as HE; destruct (stays_get _ _ p HE) as [HG _]; apply (fair_trans x y); [by apply stays_fair|] end.
  match goal with |- fair ?y (set_pb ?z ?p ?pb) => apply (fair_trans y z); [by apply stays_fair; repeat split|] end.
  apply fair_pb. right. match goal with E : pb_queue _ _ = Ok _ |- _ => unfold pb_queue in E; mon E end. subst. simpl.
  match goal with |- context [get_pb (set_ub ?y ?a ?b ?d) p] => change (get_pb (set_ub y a b d) p) with (get_pb y p) end. by rewrite HG.
Qed.
Lemma fair_dequeue c x f p n x' : b_dequeue c x f p n = Ok x' -> fair x x'.
Proof.
  intros H. unfold b_dequeue in H. mon H. subst.
  match goal with E : b_emissions _ _ _ _ _ _ _ = Ok (_, ?y) |- _ => apply emis_frame_b, stays_emis in E as HE; destruct (stays_get _ _ p HE) as [HG _]; apply (fair_trans x y); [by apply stays_fair|] end.
  match goal with |- fair ?y (set_pb ?z ?p ?pb) => apply (fair_trans y z); [by apply stays_fair; repeat split|] end.
  apply fair_pb. right. match goal with E : pb_dequeue _ _ = Ok _ |- _ => unfold pb_dequeue in E; mon E end. subst. simpl.
  match goal with |- context [get_pb (set_ub ?y ?a ?b ?d) p] => change (get_pb (set_ub y a b d) p) with (get_pb y p) end. by rewrite HG.
Qed.
Lemma fair_withdraw c x f p n r x' : b_withdraw c x f p n = Ok (r, x') -> fair x x'.
Proof.
  intros H. unfold b_withdraw in H. mon H. subst. xfer.
  match goal with |- fair x (?y <| x_tok := _ |>) => apply (fair_trans x y); [|apply stays_fair; by eapply stays_move] end.
  match goal with |- fair x (set_pb ?z ?p ?pb) => apply (fair_trans x z); [by apply stays_fair; repeat split|] end.
  apply fair_pb. right. match goal with |- context [get_pb (set_ub ?y ?a ?b ?d) p] => change (get_pb (set_ub y a b d) p) with (get_pb y p) end.
  intros _ E1' E2'. repeat match goal with E : b_nonneg _ = Ok _ |- _ => apply nonneg_ok in E end.
  match goal with E : pb_withdraw _ _ _ = Ok _ |- _ => eapply withdraw_zero; [exact E| |done|done|done] end.
  match goal with E : to_tokens _ _ = Ok _ |- _ => unfold to_tokens in E; rewrite E2' in E; cbn [Z.eqb] in E; apply Ok_inj in E; lia end.
Qed.
(** a claim credits an address only what its stream paid *)
Lemma fair_claim_loop c u ps : forall n m x n' m' x', foldM (claim_one c u) (n, m, x) ps = Ok (n', m', x') ->
  (forall p a, bs_ecfg (x_bs x) !! p = None -> m !! p = Some a -> a = 0) ->
  stays x x' /\ forall p a, bs_ecfg (x_bs x) !! p = None -> m' !! p = Some a -> a = 0.
Proof.
  induction ps as [|q ps IH]; intros n m x n' m' x' H Hm; cbn [foldM] in H; [apply Ok_inj in H; injection H as <- <- <-; split; [apply stays_refl|done]|].
  apply bind_ok in H as ([[n1 m1] x1] & H1 & H). unfold claim_one in H1. apply bind_ok in H1 as ([a x2] & E & H1). apply bind_ok in H1 as (cl & _ & H1). apply Ok_inj in H1. injection H1 as <- <- <-.
  assert (bs_ecfg (x_bs x) !! q = None -> a = 0) as Ha by (intros Hq; unfold b_emissions in E; rewrite Hq in E; apply Ok_inj in E; by injection E as <- _).
  apply emis_frame_b, stays_emis in E. assert (stays x (add_log (EvBClaim q u a) x2)) as HS by exact E.
  pose proof HS as (_ & _ & _ & _ & Hec & _). apply IH in H as [S M].
  - split; [by eapply stays_trans|]. intros p b Hp. apply M. by rewrite Hec.
  - intros p b Hp Hb. rewrite Hec in Hp. apply lookup_insert_Some in Hb as [[-> ->]|[_ Hb]]; [by apply Ha|by eapply Hm].
Qed.
Lemma fmul_zero x y d r : x * y = 0 -> fmul_floor x y d = Ok r -> r = 0.
Proof.
  intros E H. unfold fmul_floor in H. apply bind_ok in H as (z & Hz & H). apply i128_ok in Hz as [-> _]. rewrite E in H.
  unfold div_floor in H. destruct (Z.eqb_spec d 0) as [|Hd]; [done|]. rewrite Z.ltb_irrefl in H. cbn [orb andb] in H. apply i128_ok in H as [-> _]. by apply Z.quot_0_l.
Qed.
Lemma fair_claim_deps c lp m t ps : forall x x', foldM (claim_dep c lp m t) x ps = Ok x' ->
  (forall p a, bs_ecfg (x_bs x) !! p = None -> m !! p = Some a -> a = 0) -> fair x x'.
Proof.
  induction ps as [|q ps IH]; intros x x' H Hm; cbn [foldM] in H; [apply Ok_inj in H as <-; apply fair_refl|].
  apply bind_ok in H as (y & H1 & H). unfold claim_dep in H1. apply bind_ok in H1 as (a & Ha & H1). apply bind_ok in H1 as (dep & Hd & H1). cbv zeta in H1.
  apply bind_ok in H1 as (sh & Hs & H1). apply bind_ok in H1 as (pb & Hp & H1). apply bind_ok in H1 as (ub & _ & H1). apply Ok_inj in H1 as <-.
  destruct (m !! q) as [a'|] eqn:Em; [|done]. cbn in Ha. injection Ha as ->.
  apply (fair_trans x (set_ub (set_pb x q pb) q t ub)); [|by apply IH in H].
  apply (fair_trans x (set_pb x q pb)); [|apply stays_fair; by repeat split].
  apply fair_pb. right. intros (_ & _ & _ & _ & Hec & _) T S. assert (a = 0) as -> by (by eapply Hm).
  apply (fmul_zero lp 0 c) in Hd as ->; [|lia].
  unfold to_shares in Hs. rewrite S in Hs. cbn [Z.eqb] in Hs. apply Ok_inj in Hs as <-. unfold pb_deposit in Hp. apply bind_ok in Hp as (z1 & Hz1 & Hp). apply bind_ok in Hp as (z2 & Hz2 & Hp).
  apply i128_ok in Hz1 as [-> _]. apply i128_ok in Hz2 as [-> _]. apply Ok_inj in Hp as <-. unfold set. cbn. lia.
Qed.
Lemma fair_claim c x u ps t lp n x' : b_claim c x u ps t lp = Ok (n, x') -> fair x x'.
Proof.
  intros H. unfold b_claim in H. apply bind_ok in H as (? & _ & H). apply assert_ok in H as [_ H]. apply bind_ok in H as ([[cl cs] x1] & E1 & H).
  apply fair_claim_loop in E1 as [S M]; [|intros; by rewrite lookup_empty in *]. apply (fair_trans x x1); [by apply stays_fair|].
  destruct (0 <? cl); [|apply Ok_inj in H; injection H as _ <-; apply fair_refl].
  apply assert_ok in H as [_ H]. cbv zeta in H. apply bind_ok in H as (t1 & M1 & H). apply bind_ok in H as (t2 & M2 & H). apply bind_ok in H as (x2 & D & H). apply Ok_inj in H. injection H as _ <-.
  pose proof S as (_ & _ & _ & _ & Hec & _). apply fair_claim_deps in D; [|intros p a Hp; apply M; by rewrite <- Hec].
  eapply fair_trans; [|exact D]. apply stays_fair. apply tok_move_spec in M1 as (_ & A1 & _). apply mint_spec in M2 as (_ & A2 & _).
  repeat split; try done. intros K p. cbn. by rewrite A2, A1.
Qed.
(** a place in the reward zone needs a deposit *)
Lemma zone_needs c x a r x' : b_add_reward c x a r = Ok x' -> ~ clean x a.
Proof.
  intros H. unfold b_add_reward in H. apply assert_ok in H as [_ H]. apply bind_ok in H as (d & Hd & H). apply assert_ok in H as [Ht H].
  intros (T & _). unfold pool_data in Hd. cbv zeta in Hd. apply bind_ok in Hd as (q & _ & Hd). apply bind_ok in Hd as (v & _ & Hd). apply bind_ok in Hd as (b1 & Hb & Hd). apply bind_ok in Hd as (b2 & Hu & Hd).
  apply Ok_inj in Hd as <-. rewrite T in Hb, Hu.
  apply (fmul_zero 0 _ _) in Hb as ->; [|lia]. apply (fmul_zero 0 _ _) in Hu as ->; [|lia]. discriminate Ht.
Qed.
Lemma fair_zone c x a r x' : b_add_reward c x a r = Ok x' -> fair x x'.
Proof.
  intros H. pose proof (zone_needs _ _ _ _ _ H) as Hn. unfold b_add_reward in H. apply assert_ok in H as [_ H]. apply bind_ok in H as (d & Hd & H). apply assert_ok in H as [Ht H].
  assert (forall l, (forall p, p ∈ l -> p = a \/ p ∈ bs_rz (x_bs x)) -> fair x (set_bs x (fun s => s <| bs_rz := l |>))) as HL.
  { intros l Hl. split; [done|]. intros p Hp Hc. pose proof Hc as (H1 & H2 & H3 & H4 & H5 & H6). repeat split; try done.
    intros Hin. apply Hl in Hin as [->|Hin]; done. }
  destruct (_ <? _); mon H; subst; apply HL; intros p Hp; [by apply elem_of_cons in Hp|].
  clear -Hp. induction (bs_rz (x_bs x)) as [|q l IH]; [by apply elem_of_nil in Hp|]. cbn [replace_first] in Hp. destruct (_ =? _); apply elem_of_cons in Hp as [->|Hp].
  - by left.
  - right. by right.
  - right. by left.
  - destruct (IH Hp) as [->|Hi]; [by left|right; by right].
Qed.
Lemma fair_step w o out w' : reachable w -> exec w o = Ok (out, w') -> fair (w_ext w) (w_ext w').
Proof.
  intros Hr H. destruct o; simpl in H.
  - apply assert_ok in H as [Hsg H]. apply andb_true_iff in Hsg as [Hsg _]. apply bind_ok in H as ([out0 x] & E & H). injection H as <- <-.
    assert (c_auth (ctx w signers) bs_addr = false) as Hau.
    { simpl. apply not_true_iff_false. intros Hm. apply mem_addr_elem in Hm. apply (signer_pos _ _ Hsg) in Hm. unfold bs_addr in Hm. lia. }
    assert (forall f : Addr, c_auth (ctx w signers) f = true -> f <> bs_addr) as Hne by (intros f Hf ->; congruence).
    change (w_ext (w <| w_ext := x |>)) with x.
    destruct o; simpl in E; unfold ret_unit, ret_z in E; mon E; subst.
    + apply stays_fair. unfold em_initialize in E0. mon E0. subst. by repeat split.
    + match goal with H : em_distribute _ _ = Ok _ |- _ => unfold em_distribute in H; mon H end. apply stays_fair. by eapply stays_distribute.
    + apply stays_fair. unfold em_queue_swap in E0. mon E0. subst. by repeat split.
    + apply stays_fair. unfold em_cancel_swap in E0. mon E0. subst. by repeat split.
    + match goal with H : em_swap_backstop _ _ = Ok _ |- _ => unfold em_swap_backstop in H; mon H end. subst.
      match goal with H : em_execute_distribute _ _ _ = Ok _ |- _ => apply stays_distribute in H as HD end. eapply fair_trans; [apply stays_fair; exact HD|]. apply stays_fair. by repeat split.
    + apply stays_fair. by eapply stays_drop.
    + unfold fa_initialize in E0. mon E0. subst. apply stays_fair. by repeat split.
    + unfold b_initialize in E0. mon E0. subst. split; [|by intros p _ Hc]. intros p (Hi & _). match goal with Hn : negb _ = true |- _ => apply negb_true_iff in Hn; congruence end.
    + by eapply fair_deposit.
    + by eapply fair_queue.
    + by eapply fair_dequeue.
    + by eapply fair_withdraw.
    + unfold b_draw in E0. mon E0. subst. xfer.
      match goal with |- fair _ (?y <| x_tok := _ |>) => apply (fair_trans (w_ext w) y); [|apply stays_fair; by eapply stays_move] end.
      apply fair_pb. right. intros _ T S. match goal with E : b_nonneg _ = Ok _ |- _ => apply nonneg_ok in E end.
      match goal with E : pb_withdraw _ _ _ = Ok _ |- _ => refine (withdraw_zero _ _ _ _ E _ _ T S) end; done.
    + unfold b_donate in E0. mon E0. subst. xfer. try match goal with E : require_pool _ _ _ = Ok ?u |- _ => destruct u end.
      match goal with |- fair ?x (set_pb ?y ?p ?pb) => apply (fair_trans x y); [apply stays_fair; by eapply stays_move|]; apply fair_pb; destruct (decide (pb_shares (get_pb x p) = 0)) as [Es|Es]; [left; by eapply require_reg|right; intros _ _ ?; done] end.
    + match goal with H : b_update_tkn_val _ _ = Ok _ |- _ => unfold b_update_tkn_val in H; mon H end. subst. apply stays_fair. by repeat split.
    + match goal with H : b_drop _ _ = Ok _ |- _ => unfold b_drop in H; mon H end. apply stays_fair. by eapply stays_drop.
    + by eapply fair_zone.
    + by eapply fair_gulp.
    + by eapply fair_gulp_pool.
    + by eapply fair_claim.
    + xfer. apply stays_fair. by eapply stays_move.
    + match goal with H : approve _ _ _ _ _ _ _ = Ok _ |- _ => unfold approve in H; mon H; subst end.
      match goal with H : need_auth _ _ = Ok _ |- _ => apply need_auth_ok, Hne in H end.
      apply stays_fair, stays_tok. intros K p. simpl. rewrite lookup_insert_ne; [done|]. by intros [= ? ? ?].
    + by eapply fair_spend.
    + match goal with H : burn _ _ _ _ _ = Ok _ |- _ => unfold burn in H; mon H end. subst. apply stays_fair, stays_tok. done.
    + match goal with H : mint _ _ _ _ = Ok _ |- _ => apply mint_spec in H as (_ & A & _) end. apply stays_fair, stays_tok. intros K p. by rewrite A.
  - apply assert_ok in H as [Hsg H]. apply andb_true_iff in Hsg as [Hsg _]. apply bind_ok in H as (p & Hp & H). apply bind_ok in H as ([out0 px] & E & H). injection H as <- <-. apply p_exec_xmoves in E. simpl in E. simpl.
    assert (c_auth (ctx w signers) bs_addr = false) as Hau.
    { simpl. apply not_true_iff_false. intros Hm. apply mem_addr_elem in Hm. apply (signer_pos _ _ Hsg) in Hm. unfold bs_addr in Hm. lia. }
    eapply fair_xmoves; try done. destruct (w_pools w !! pool) as [q|] eqn:Eq; [|done]. pose proof (pools_neg w Hr _ _ Eq). unfold bs_addr. lia.
  - apply assert_ok in H as [_ H]. apply bind_ok in H as (v & _ & H). destruct (w_pools w !! _); [done|]. mon H. subst. simpl.
    split; [|by intros q _ Hc]. intros q (H1 & H2 & H3). split; [done|]. split; [done|]. simpl. set_solver.
  - apply assert_ok in H as [_ H]. destruct (w_pools w !! _); [done|]. mon H. subst. apply fair_refl.
  - mon H. subst. apply fair_refl.
  - mon H. subst. by apply stays_fair.
  - mon H. subst. by apply stays_fair.
  - destruct (w_pools w !! _); mon H; subst; apply fair_refl.
  - destruct (w_pools w !! _); mon H; subst; apply fair_refl.
  - mon H. subst. by apply stays_fair.
Qed.
Lemma reachable_clean w p : reachable w -> ~ reg (w_ext w) p -> clean (w_ext w) p.
Proof.
  intros (w0 & l & Hi & ->). revert p. induction l as [|o l IH] using rev_ind; intros p Hn.
  - destruct Hi as (now & seq & t & or & lp & -> & _ & _ & [_ Ha] & _). match goal with |- context [run ?w []] => change (run w []) with w end.
    repeat split; try done; try (by apply not_elem_of_nil). intros K. unfold gr. simpl. destruct (tk_allow t !! (K, bs_addr, p)) as [[n lv]|] eqn:E; [|done]. apply Ha in E as [_ E]. unfold bs_addr in E. lia.
  - rewrite run_snoc in *. set (w := run w0 l) in *. assert (reachable w) as Hr by (by exists w0, l). unfold step in *. destruct (exec w o) as [[out w']|] eqn:E; [|by apply IH].
    pose proof (fair_step _ _ _ _ Hr E) as [R C]. apply C; [done|]. apply IH. intros Hx. by apply Hn, R.
Qed.

(** ** C87: whatever happens, an address that the pool factory of the backstop did not deploy has no deposits in the backstop (of its own or
    of any user for it), no place in the reward zone, no emissions and no allowance on the backstop's tokens, and no call gives it any. *)
Theorem C87_only_deployed_pools w p : reachable w -> ~ registered w p ->
  pb_tokens (pool_bal w p) = 0 /\ pb_shares (pool_bal w p) = 0 /\
  (forall u, ub_shares (user_bal w p u) = 0 /\ queued_of w p u = 0) /\
  p ∉ zone w /\ recorded w p = 0 /\ bs_ecfg (x_bs (w_ext w)) !! p = None /\
  forall tok, granted w tok bs_addr p = 0.
Proof.
  intros Hr Hn. destruct (reachable_clean w p Hr) as (H1 & H2 & H3 & H4 & H5 & H6); [intros (_ & ? & ?); by apply Hn|].
  split; [done|]. split; [done|]. split; [|do 3 (split; [done|]); intros tok; specialize (H6 tok); unfold gr, granted in *; by destruct (tk_allow _ !! _) as [[? ?]|]]. intros u. pose proof (user_queued_le w p u Hr) as (U1 & U2 & U3 & _). unfold pool_bal in U3. rewrite H2 in U3. lia.
Qed.
(** Nor does any call that would give it something, or take something out in its name, succeed. *)
Theorem C87_calls_fail w sg f p n r : reachable w -> ~ registered w p ->
  ~ succeeds w (OExt sg (BDeposit f p n)) /\ ~ succeeds w (OExt sg (BDonate f p n)) /\ ~ succeeds w (OExt sg (BAddReward p r)) /\
  ~ succeeds w (OExt sg (BWithdraw f p n)) /\ ~ succeeds w (OExt sg (BGulpPool p)) /\
  (n <> 0 -> ~ succeeds w (OExt sg (BQueue f p n)) /\ ~ succeeds w (OExt sg (BDequeue f p n)) /\ ~ succeeds w (OExt sg (BDraw p n r))).
Proof.
  intros Hr Hn. assert (~ reg (w_ext w) p) as Hg by (intros (_ & ? & ?); by apply Hn).
  pose proof (reachable_clean w p Hr Hg) as Hc. pose proof Hc as (T & S & Z1 & P1 & E1 & G1).
  destruct (C87_only_deployed_pools w p Hr Hn) as (_ & _ & HU & _). destruct (HU f) as [U1 U2].
  assert (forall o, succeeds w (OExt sg o) -> exists out x, x_exec (ctx w sg) (w_ext w) o = Ok (out, x)) as HX.
  { intros o (out & w' & H). cbn [exec] in H. apply assert_ok in H as [_ H]. apply bind_ok in H as ([o1 x] & H & _). by exists o1, x. }
  repeat split; try (intros Hs; apply HX in Hs as (out & x & Hx); simpl in Hx; unfold ret_z, ret_unit in Hx; mon Hx; subst).
  - match goal with E : b_deposit _ _ _ _ _ = Ok _ |- _ => unfold b_deposit in E; mon E end. try match goal with E : require_pool _ _ _ = Ok ?u |- _ => destruct u end. apply Hg. by eapply require_reg.
  - match goal with E : b_donate _ _ _ _ _ = Ok _ |- _ => unfold b_donate in E; mon E end. try match goal with E : require_pool _ _ _ = Ok ?u |- _ => destruct u end. apply Hg. by eapply require_reg.
  - match goal with E : b_add_reward _ _ _ _ = Ok _ |- _ => by eapply zone_needs end.
  - match goal with E : b_withdraw _ _ _ _ _ = Ok _ |- _ => unfold b_withdraw in E; mon E end.
    match goal with E : to_tokens _ _ = Ok _ |- _ => unfold to_tokens in E; rewrite S in E; cbn [Z.eqb] in E; apply Ok_inj in E; subst end.
    match goal with E : b_nonneg _ = Ok _ |- _ => apply nonneg_ok in E end.
    match goal with E : pb_withdraw _ _ _ = Ok _ |- _ => unfold pb_withdraw in E; apply assert_ok in E as [E _] end.
    repeat match goal with E : negb _ = true |- _ => apply negb_true_iff in E end. rewrite !orb_false_iff, !Z.ltb_ge in *. rewrite ?Z.eqb_neq in *. lia.
  - match goal with E : b_gulp_pool _ _ _ = Ok _ |- _ => unfold b_gulp_pool in E; apply bind_ok in E as (? & _ & E); cbv zeta in E; apply assert_ok in E as [E _] end.
    rewrite P1 in *. done.
  - match goal with E : b_queue _ _ _ _ _ = Ok _ |- _ => unfold b_queue in E; mon E end.
    match goal with E : b_nonneg _ = Ok _ |- _ => apply nonneg_ok in E end.
    match goal with E : ub_queue _ _ _ = Ok _ |- _ => unfold ub_queue in E; apply assert_ok in E as [E _]; apply negb_true_iff, Z.ltb_ge in E end.
    unfold user_bal in U1. lia.
  - match goal with E : b_dequeue _ _ _ _ _ = Ok _ |- _ => unfold b_dequeue in E; mon E end.
    match goal with E : b_nonneg _ = Ok _ |- _ => apply nonneg_ok in E end.
    match goal with E : pb_dequeue _ _ = Ok _ |- _ => unfold pb_dequeue in E; apply assert_ok in E as [E _]; apply negb_true_iff, Z.ltb_ge in E end.
    pose proof (user_queued_le w p f Hr) as (V1 & V2 & V3 & V4 & V5). unfold pool_bal in *. lia.
  - match goal with E : b_draw _ _ _ _ _ = Ok _ |- _ => unfold b_draw in E; mon E end.
    match goal with E : b_nonneg _ = Ok _ |- _ => apply nonneg_ok in E end.
    match goal with E : pb_withdraw _ _ _ = Ok _ |- _ => unfold pb_withdraw in E; apply assert_ok in E as [E _] end.
    repeat match goal with E : negb _ = true |- _ => apply negb_true_iff in E end. rewrite !orb_false_iff, !Z.ltb_ge in *. lia.
Qed.
