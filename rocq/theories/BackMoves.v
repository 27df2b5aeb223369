(** * Backstop: labelled moves

    Every successful transaction changes the backstop's share accounting by a
    sequence of the moves below; the label of each move is determined by the
    transaction. *)
From Verif Require Import Base Types Token Emitter Factory Backstop PoolReserve PoolUser PoolHealth
  PoolAuction PoolSubmit PoolEmis PoolAdmin World Facts XMove Spec FrameFacts PoolFrame PoolCfg.

(** LP tokens held by the backstop contract *)
Definition held (x : Ext) : Z := balance (x_tok x) (bs_token (x_bs x)) bs_addr.
(** shares queued for withdrawal by a user *)
Definition queued (b : UserBal) : Z := sumz q_amount (ub_q4w b).

(** the backstop has granted allowances for BLND only, and BLND is not its own
    deposit token *)
Definition allow_ok (x : Ext) : Prop :=
  forall tok s v, tk_allow (x_tok x) !! (tok, bs_addr, s) = Some v -> bs_init (x_bs x) = true /\ tok = bs_blnd (x_bs x).

Inductive BAct :=
| ANone | AInit | ALp (n : Z)
| ADep (u p amt m : Z) | AQue (u p n : Z) | ADeq (u p n : Z) | AWd (u p n ret : Z)
| ADrw (p n : Z) | ADon (p n : Z) | ACred (u p dep m : Z).

(** change of the LP tokens held *)
Definition hdelta (a : BAct) : Z :=
  match a with
  | ALp n => n | ADep _ _ n _ => n | AWd _ _ _ r => - r | ADrw _ n => - n | ADon _ n => n | _ => 0
  end.

Definition same_bal (x x' : Ext) : Prop :=
  bs_user (x_bs x') = bs_user (x_bs x) /\ bs_pool (x_bs x') = bs_pool (x_bs x).
Definition upd_bal (x x' : Ext) (p u : Z) (pb : PoolBal) (ub : UserBal) : Prop :=
  bs_user (x_bs x') = <[(p, u) := ub]> (bs_user (x_bs x)) /\ bs_pool (x_bs x') = <[p := pb]> (bs_pool (x_bs x)).
Definition upd_pool (x x' : Ext) (p : Z) (pb : PoolBal) : Prop :=
  bs_user (x_bs x') = bs_user (x_bs x) /\ bs_pool (x_bs x') = <[p := pb]> (bs_pool (x_bs x)).

(** what a move does to the share accounting *)
Definition bal_eff (c : Ctx) (a : BAct) (x x' : Ext) : Prop :=
  match a with
  | ANone | AInit => same_bal x x'
  | ALp n => same_bal x x' /\ 0 <= n
  | ADep u p amt m => exists pb ub, 0 <= amt /\ to_shares (get_pb x p) amt = Ok m /\ m <> 0 /\
      pb_deposit (get_pb x p) amt m = Ok pb /\ ub_add (get_ub x p u) m = Ok ub /\ upd_bal x x' p u pb ub
  | ACred u p amt m => exists pb ub, 0 <= amt /\ to_shares (get_pb x p) amt = Ok m /\
      pb_deposit (get_pb x p) amt m = Ok pb /\ ub_add (get_ub x p u) m = Ok ub /\ upd_bal x x' p u pb ub
  | AQue u p n => exists pb ub, 0 <= n /\ ub_queue c (get_ub x p u) n = Ok ub /\
      pb_queue (get_pb x p) n = Ok pb /\ upd_bal x x' p u pb ub
  | ADeq u p n => exists pb ub1 ub, 0 <= n /\ ub_dequeue c (get_ub x p u) n false = Ok ub1 /\ ub_add ub1 n = Ok ub /\
      pb_dequeue (get_pb x p) n = Ok pb /\ upd_bal x x' p u pb ub
  | AWd u p n ret => exists pb ub, 0 <= n /\ ub_dequeue c (get_ub x p u) n true = Ok ub /\
      to_tokens (get_pb x p) n = Ok ret /\ ret <> 0 /\ pb_withdraw (get_pb x p) ret n = Ok pb /\ upd_bal x x' p u pb ub
  | ADrw p n => exists pb, 0 <= n /\ pb_withdraw (get_pb x p) n 0 = Ok pb /\ upd_pool x x' p pb
  | ADon p n => exists pb, 0 <= n /\ pb_deposit (get_pb x p) n 0 = Ok pb /\ upd_pool x x' p pb
  end.

(** moves that only happen once the backstop is initialized *)
Definition needs_init (a : BAct) : Prop :=
  match a with ADep _ _ _ _ | AWd _ _ _ _ | ADrw _ _ | ADon _ _ | ACred _ _ _ _ => True | _ => False end.

Record bmove (c : Ctx) (a : BAct) (x x' : Ext) : Prop := mkBmove {
  bm_bal : bal_eff c a x x';
  bm_init : match a with
            | AInit => bs_init (x_bs x) = false
            | _ => bs_init (x_bs x') = bs_init (x_bs x) /\ bs_token (x_bs x') = bs_token (x_bs x) /\ bs_blnd (x_bs x') = bs_blnd (x_bs x)
            end;
  bm_allow : allow_ok x -> allow_ok x';
  bm_held : match a with
            | AInit => x_tok x' = x_tok x
            | _ => allow_ok x -> bs_token (x_bs x) <> bs_blnd (x_bs x) -> held x' >= held x + hdelta a
            end;
  bm_needs : needs_init a -> bs_init (x_bs x) = true
}.

Inductive bmoves (c : Ctx) : list BAct -> Ext -> Ext -> Prop :=
| bms_nil x : bmoves c [] x x
| bms_cons a l x y z : bmove c a x y -> bmoves c l y z -> bmoves c (a :: l) x z.

Lemma bmoves_one c a x y : bmove c a x y -> bmoves c [a] x y.
Proof. intros H. econstructor; [done|constructor]. Qed.
Lemma bmoves_app c l1 l2 x y z : bmoves c l1 x y -> bmoves c l2 y z -> bmoves c (l1 ++ l2) x z.
Proof. induction 1; simpl; [done|]. intros H2. econstructor; eauto. Qed.

(** ** Emission updates do not touch the accounting *)
Definition emis_frame (x x' : Ext) : Prop :=
  exists e u, x' = x <| x_bs := x_bs x <| bs_edata := e |> <| bs_uemis := u |> |>.
Lemma emis_frame_refl x : emis_frame x x.
Proof. exists (bs_edata (x_bs x)), (bs_uemis (x_bs x)). destruct x as [? ? []]. done. Qed.
Lemma emis_frame_trans x y z : emis_frame x y -> emis_frame y z -> emis_frame x z.
Proof. intros (e & u & ->) (e' & u' & ->). exists e', u'. destruct x as [? ? []]. done. Qed.
#[export] Hint Resolve emis_frame_refl : core.

Lemma emis_frame_bedata x p v : emis_frame x (set_bedata x p v).
Proof. exists (<[p := v]> (bs_edata (x_bs x))), (bs_uemis (x_bs x)). destruct x as [? ? []]. done. Qed.
Lemma emis_frame_buemis x p u v : emis_frame x (set_buemis x p u v).
Proof. exists (bs_edata (x_bs x)), (<[(p, u) := v]> (bs_uemis (x_bs x))). destruct x as [? ? []]. done. Qed.
#[export] Hint Resolve emis_frame_bedata emis_frame_buemis : core.
Lemma emis_frame_data c x p pb cfg d x' : b_update_data c x p pb cfg = Ok (d, x') -> emis_frame x x'.
Proof.
  unfold b_update_data. intros H. mon1 H. destruct (_ || _); mon H; auto.
Qed.
Lemma emis_frame_user x p u d ub cl n x' : b_update_user x p u d ub cl = Ok (n, x') -> emis_frame x x'.
Proof.
  unfold b_update_user, b_set_user. intros H.
  destruct (bs_uemis _ !! _); [destruct (_ || _)|]; [destruct (_ =? _)| |destruct (_ =? _)]; mon H; try done; destruct cl;
    simplify_eq; auto.
Qed.
Lemma emis_frame_b c x p pb u ub cl n x' : b_emissions c x p pb u ub cl = Ok (n, x') -> emis_frame x x'.
Proof.
  unfold b_emissions. intros H. destruct (bs_ecfg _ !! _); mon H; [|done].
  eapply emis_frame_trans; [by eapply emis_frame_data|by eapply emis_frame_user].
Qed.

(** ** Tokens held *)
Lemma tok_move_bal t tok from to amt t' k a :
  (from <> a \/ amt = 0 \/ tok <> k) -> tok_move t tok from to amt = Ok t' -> balance t' k a >= balance t k a.
Proof.
  intros Hf H. apply tok_move_spec in H as (Ha & _ & _ & Hb & _). rewrite Hb.
  repeat case_bool_decide; destruct_and?; subst; try lia; naive_solver lia.
Qed.
Lemma transfer_allow c t tok from to amt t' : transfer c t tok from to amt = Ok t' -> tk_allow t' = tk_allow t.
Proof. intros H. apply transfer_move in H as [_ H]. by apply tok_move_spec in H as (_ & ? & _). Qed.
Lemma transfer_from_spec c t tok s from to amt t' :
  transfer_from c t tok s from to amt = Ok t' ->
  0 <= amt <= allowance c t tok from s /\ c_auth c s = true /\
  (forall k, k <> (tok, from, s) -> tk_allow t' !! k = tk_allow t !! k) /\
  (tk_allow t !! (tok, from, s) = None -> tk_allow t' !! (tok, from, s) = None) /\
  exists t1, tk_bal t1 = tk_bal t /\ tok_move t1 tok from to amt = Ok t'.
Proof.
  unfold transfer_from. intros H. mon H. apply need_auth_ok in E.
  split; [lia|]. split; [done|].
  match type of H with tok_move ?t1 _ _ _ _ = _ => assert (tk_bal t1 = tk_bal t) as Hb by (repeat case_match; done) end.
  pose proof (tok_move_spec _ _ _ _ _ _ H) as (_ & Ha & _). rewrite Ha.
  split; [|split; [|by eauto]].
  - intros k Hk. repeat case_match; try done. simpl. by rewrite lookup_insert_ne.
  - intros Hn. by rewrite Hn.
Qed.

(** only the tokens change, nothing is taken from the backstop *)
Lemma none_tok c x t :
  (forall k s, tk_allow t !! (k, bs_addr, s) = tk_allow (x_tok x) !! (k, bs_addr, s) \/
     tk_allow (x_tok x) !! (k, bs_addr, s) <> None) ->
  (allow_ok x -> bs_token (x_bs x) <> bs_blnd (x_bs x) -> held (x <| x_tok := t |>) >= held x) ->
  bmove c ANone x (x <| x_tok := t |>).
Proof.
  intros Ha Hh. constructor; simpl; try done.
  - intros H k s v Hv. simpl in *. destruct (Ha k s) as [Hk|Hk].
    + rewrite Hk in Hv. eauto.
    + destruct (tk_allow (x_tok x) !! (k, bs_addr, s)) eqn:E; [eauto|done].
  - intros H1 H2. rewrite Z.add_0_r. auto.
Qed.

Lemma allowance_bs c x tok s : allow_ok x -> tok <> bs_blnd (x_bs x) -> allowance c (x_tok x) tok bs_addr s = 0.
Proof.
  intros H Hne. unfold allowance. destruct (tk_allow _ !! _) eqn:E; [|done]. apply H in E as [_ E]. done.
Qed.

Lemma none_move c x tok from to amt t :
  from <> bs_addr -> tok_move (x_tok x) tok from to amt = Ok t -> bmove c ANone x (x <| x_tok := t |>).
Proof.
  intros Hf H. apply none_tok.
  - intros k s. left. by apply tok_move_spec in H as (_ & -> & _).
  - intros _ _. unfold held; simpl. eapply tok_move_bal; [left; exact Hf|exact H].
Qed.
Lemma none_spend c c' x tok s from to amt t :
  transfer_from c' (x_tok x) tok s from to amt = Ok t -> bmove c ANone x (x <| x_tok := t |>).
Proof.
  intros H. apply transfer_from_spec in H as (Ha & _ & Hk & Hk2 & t1 & Hb & Hm). apply none_tok.
  - intros k s'. destruct (decide ((k, bs_addr, s') = (tok, from, s))) as [[= -> <- ->]|Hne].
    + destruct (tk_allow (x_tok x) !! _) eqn:E; [by right|]. left. auto.
    + left. by apply Hk.
  - intros Hal Hne.
    unfold held. simpl. replace (balance (x_tok x) (bs_token (x_bs x)) bs_addr) with (balance t1 (bs_token (x_bs x)) bs_addr)
      by (unfold balance; by rewrite Hb).
    eapply tok_move_bal; [|exact Hm].
    destruct (decide (from = bs_addr)) as [->|]; [|by left]. right.
    destruct (decide (tok = bs_token (x_bs x))) as [->|]; [|by right]. left.
    rewrite allowance_bs in Ha by done. lia.
Qed.
Lemma none_frame c x x' :
  same_bal x x' -> bs_init (x_bs x') = bs_init (x_bs x) -> bs_token (x_bs x') = bs_token (x_bs x) ->
  bs_blnd (x_bs x') = bs_blnd (x_bs x) -> x_tok x' = x_tok x -> bmove c ANone x x'.
Proof.
  intros H1 H2 H3 H4 H5. constructor; [done|done| | |done].
  - intros H k s v. rewrite H5, H2, H4. apply H.
  - intros _ _. unfold held. rewrite H5, H3. simpl. lia.
Qed.

(** ** Emission amounts are never negative *)
Definition emis_nonneg (x : Ext) : Prop :=
  (forall p d, bs_edata (x_bs x) !! p = Some d -> 0 <= ed_index d) /\
  (forall p u e, bs_uemis (x_bs x) !! (p, u) = Some e -> 0 <= ue_accrued e) /\
  (forall p e, bs_ecfg (x_bs x) !! p = Some e -> 0 <= ec_eps e).
(** user shares are never negative *)
Definition users_nonneg (x : Ext) : Prop :=
  forall p u b, bs_user (x_bs x) !! (p, u) = Some b -> 0 <= ub_shares b.
Definition pools_nonneg (x : Ext) : Prop :=
  forall p b, bs_pool (x_bs x) !! p = Some b -> 0 <= pb_shares b /\ 0 <= pb_tokens b.

Lemma users_get x p u : users_nonneg x -> 0 <= ub_shares (get_ub x p u).
Proof. intros H. unfold get_ub. destruct (_ !! _) eqn:E; simpl; [by eapply H|done]. Qed.
Lemma pools_get x p : pools_nonneg x -> 0 <= pb_shares (get_pb x p) /\ 0 <= pb_tokens (get_pb x p).
Proof. intros H. unfold get_pb. destruct (_ !! _) eqn:E; simpl; [by eapply H|done]. Qed.

Lemma set_bedata_id x p d : bs_edata (x_bs x) !! p = Some d -> set_bedata x p d = x.
Proof. intros H. unfold set_bedata, set_bs. destruct x as [? ? []]; simpl in *. unfold set; simpl. by rewrite insert_id. Qed.
Lemma set_buemis_id x p u d : bs_uemis (x_bs x) !! (p, u) = Some d -> set_buemis x p u d = x.
Proof. intros H. unfold set_buemis, set_bs. destruct x as [? ? []]; simpl in *. unfold set; simpl. by rewrite insert_id. Qed.
Lemma update_data_spec c x p pb cfg d' x' :
  b_update_data c x p pb cfg = Ok (d', x') -> 0 <= ec_eps cfg ->
  exists d, bs_edata (x_bs x) !! p = Some d /\ x' = set_bedata x p d' /\
    (d' = d /\ (ec_exp cfg <= ed_last d \/ c_now c = ed_last d \/ ec_eps cfg = 0 \/ pb_shares pb = 0) \/
     ed_last d' = c_now c /\ ed_last d < ec_exp cfg /\ ed_last d < c_now c /\ ec_eps cfg <> 0 /\ pb_shares pb <> 0 /\ 0 < pb_shares pb - pb_q4w pb /\
     ed_index d' = ed_index d + (Z.min (ec_exp cfg) (c_now c) - ed_last d) * ec_eps cfg * 10000000 / (pb_shares pb - pb_q4w pb)).
Proof.
  unfold b_update_data. intros H He. mon1 H. unfold unwrap in E. destruct (bs_edata _ !! p) as [d0|] eqn:Ed; [|done].
  injection E as ->. exists d. split; [done|]. destruct (_ || _) eqn:Ec.
  - mon H. split; [|left; split; [done|]].
    + by rewrite set_bedata_id.
    + apply orb_prop in Ec as [Ec|?]; [|lia]. apply orb_prop in Ec as [Ec|?]; [|lia]. apply orb_prop in Ec as [Ec|?]; lia.
  - mon H. split; [done|]. right. simpl.
    apply orb_false_iff in Ec as [Ec ?]. apply orb_false_iff in Ec as [Ec ?]. apply orb_false_iff in Ec as [Ec1 Ec2].
    apply i128_ok in E as [-> _]. unfold b_nonneg in E0. destruct (_ <? 0) eqn:Eq in E0; [discriminate|].
    apply u64_ok in E1 as [-> Ht]. apply i128_ok in E2 as [-> _].
    apply i128_ok in E4 as [-> _].
    destruct (decide (pb_shares pb - pb_q4w pb = 0)) as [Hz|Hz].
    { exfalso. unfold fdiv_floor, div_floor in E3. mon1 E3. rewrite Hz in E3. discriminate. }
    apply fdiv_floor_ok in E3 as [-> _]; [|lia].
    assert ((if ec_exp cfg <? c_now c then ec_exp cfg else c_now c) = Z.min (ec_exp cfg) (c_now c)) as Hmin
      by (clear; destruct (Z.ltb_spec (ec_exp cfg) (c_now c)); lia).
    rewrite Hmin in *. vals. split; [done|]. split; [lia|]. split; [lia|]. split; [lia|]. split; [lia|]. split; [lia|]. lia.
Qed.

Lemma update_user_spec x p u d ub cl n x' :
  b_update_user x p u d ub cl = Ok (n, x') ->
  let i := default 0 (ue_index <$> bs_uemis (x_bs x) !! (p, u)) in
  let a := default 0 (ue_accrued <$> bs_uemis (x_bs x) !! (p, u)) in
  let acc := a + ub_shares ub * (ed_index d - i) / 10000000 in
  (ub_shares ub = 0 \/ bs_uemis (x_bs x) !! (p, u) = None \/ i <= ed_index d) /\
  n = (if cl then acc else 0) /\
  x' = set_buemis x p u (mkUserEmis (ed_index d) (if cl then 0 else acc)).
Proof.
  unfold b_update_user, b_set_user. intros H.
  destruct (bs_uemis _ !! _) as [ud|] eqn:Eu; simpl.
  - destruct (negb _ || cl) eqn:Ec.
    + destruct (ub_shares ub =? 0) eqn:Es.
      * apply Ok_inj in H. replace (ub_shares ub) with 0 by lia. simpl. rewrite Zdiv_0_l, Z.add_0_r.
        destruct cl; simplify_eq; auto.
      * mon1 H. mon1 H. mon1 H. mon1 H. apply i128_ok in E as [-> _]. unfold b_nonneg in E0. destruct (_ <? 0) eqn:En in E0; [discriminate|].
        apply fmul_floor_ok in E1 as [-> _]; [|by vals]. apply i128_ok in E2 as [-> _].
        apply Ok_inj in H. vals. destruct cl; simplify_eq; (split; [right; right; lia|auto]).
    + mon H. apply orb_false_iff in Ec as [Ec ->]. apply negb_false_iff in Ec.
      replace (ed_index d - ue_index ud) with 0 by lia. rewrite Z.mul_0_r, Zdiv_0_l, Z.add_0_r.
      split; [right; right; lia|]. split; [done|].
      replace (mkUserEmis (ed_index d) (ue_accrued ud)) with ud by (destruct ud; simpl in *; f_equal; lia).
      by rewrite set_buemis_id.
  - destruct (ub_shares ub =? 0) eqn:Es.
    + apply Ok_inj in H. replace (ub_shares ub) with 0 by lia. simpl.
      destruct cl; simplify_eq; auto.
    + mon1 H. apply fmul_floor_ok in E as [-> _]; [|by vals]. apply Ok_inj in H. vals. rewrite Z.sub_0_r, Z.add_0_l.
      destruct cl; simplify_eq; auto.
Qed.

(** index of a pool and of a user; an absent entry counts as zero *)
Definition bidx (x : Ext) (p : Addr) : Z := default 0 (ed_index <$> bs_edata (x_bs x) !! p).
Definition buidx (x : Ext) (p u : Addr) : Z := default 0 (ue_index <$> bs_uemis (x_bs x) !! (p, u)).
Definition buacc (x : Ext) (p u : Addr) : Z := default 0 (ue_accrued <$> bs_uemis (x_bs x) !! (p, u)).

Lemma b_emissions_some c x p pb u ub cl n x' cfg :
  b_emissions c x p pb u ub cl = Ok (n, x') -> bs_ecfg (x_bs x) !! p = Some cfg -> 0 <= ec_eps cfg ->
  exists d d' ue', bs_edata (x_bs x) !! p = Some d /\
    x' = set_buemis (set_bedata x p d') p u ue' /\
    (d' = d /\ (ec_exp cfg <= ed_last d \/ c_now c = ed_last d \/ ec_eps cfg = 0 \/ pb_shares pb = 0) \/
     ed_last d' = c_now c /\ ed_last d < ec_exp cfg /\ ed_last d < c_now c /\ ec_eps cfg <> 0 /\ pb_shares pb <> 0 /\ 0 < pb_shares pb - pb_q4w pb /\
     ed_index d' = ed_index d + (Z.min (ec_exp cfg) (c_now c) - ed_last d) * ec_eps cfg * 10000000 / (pb_shares pb - pb_q4w pb)) /\
    ue_index ue' = ed_index d' /\
    (ub_shares ub = 0 \/ bs_uemis (x_bs x) !! (p, u) = None \/ buidx x p u <= ed_index d') /\
    ue_accrued ue' + n = buacc x p u + ub_shares ub * (ed_index d' - buidx x p u) / 10000000 /\
    (if cl then ue_accrued ue' = 0 else n = 0).
Proof.
  unfold b_emissions. intros H He Hn. rewrite He in H. mon H.
  apply update_data_spec in E as (d & Ed & -> & Hd); [|done].
  apply update_user_spec in H as (H1 & H2 & ->). simpl in H1, H2.
  eexists d, _, _. split; [done|]. split; [done|]. split; [exact Hd|]. split; [done|].
  split; [exact H1|]. simpl. unfold buacc, buidx. destruct cl; subst; simpl; split; lia.
Qed.
Lemma b_emissions_none c x p pb u ub cl n x' :
  b_emissions c x p pb u ub cl = Ok (n, x') -> bs_ecfg (x_bs x) !! p = None -> n = 0 /\ x' = x.
Proof. unfold b_emissions. intros H He. rewrite He in H. by mon H. Qed.

Lemma b_emissions_nonneg c x p pb u ub cl n x' :
  b_emissions c x p pb u ub cl = Ok (n, x') -> emis_nonneg x -> 0 <= ub_shares ub -> emis_nonneg x' /\ 0 <= n.
Proof.
  intros H (H1 & H2 & H3) Hs. destruct (bs_ecfg (x_bs x) !! p) as [cfg|] eqn:Ec.
  - pose proof (H3 _ _ Ec) as He. destruct (b_emissions_some _ _ _ _ _ _ _ _ _ _ H Ec He) as (d & d' & ue' & Ed & -> & Hd & Hi & Hu & Ha & Hc).
    pose proof (H1 _ _ Ed).
    assert (ed_index d <= ed_index d') as Hi'.
    { destruct Hd as [[-> _]|(_ & ? & ? & ? & ? & ? & ->)]; [lia|].
      assert (0 <= (Z.min (ec_exp cfg) (c_now c) - ed_last d) * ec_eps cfg * 10000000 / (pb_shares pb - pb_q4w pb)); [|lia].
      apply Z.div_pos; [|lia]. apply Z.mul_nonneg_nonneg; [|lia]. apply Z.mul_nonneg_nonneg; lia. }
    assert (0 <= buacc x p u).
    { unfold buacc. destruct (bs_uemis (x_bs x) !! (p, u)) eqn:E; simpl; [by eapply H2|done]. }
    assert (0 <= ub_shares ub * (ed_index d' - buidx x p u) / 10000000) as Hm.
    { destruct Hu as [->|[Hu|Hu]]; [done| |].
      - unfold buidx. rewrite Hu. simpl. apply Z.div_pos; [|lia]. apply Z.mul_nonneg_nonneg; lia.
      - apply Z.div_pos; [|lia]. apply Z.mul_nonneg_nonneg; lia. }
    assert (0 <= ue_accrued ue' /\ 0 <= n) as [Hue Hn] by (destruct cl; lia).
    split; [|done]. split; [|split]; simpl.
    + intros q e. rewrite lookup_insert_Some. intros [[-> <-]|[_ ?]]; [lia|by eapply H1].
    + intros q v e. rewrite lookup_insert_Some. intros [[[= -> ->] <-]|[_ ?]]; [lia|by eapply H2].
    + done.
  - apply b_emissions_none in H as [-> ->]; [|done]. split; [|lia]. by split.
Qed.

(** ** Calls as moves *)
Lemma b_nonneg_ok n u : b_nonneg n = Ok u -> 0 <= n.
Proof. unfold b_nonneg. destruct (_ <? _) eqn:E; [done|]. lia. Qed.

Lemma allow_ok_frame x x' :
  allow_ok x -> x_tok x' = x_tok x -> bs_init (x_bs x') = bs_init (x_bs x) -> bs_blnd (x_bs x') = bs_blnd (x_bs x) -> allow_ok x'.
Proof. intros H H1 H2 H3 k s v. rewrite H1, H2, H3. apply H. Qed.

(** a transfer in or out together with a change of the accounting *)
Lemma move_with_transfer c a x x' t tok from to amt :
  bal_eff c a x x' -> a <> AInit -> (needs_init a -> bs_init (x_bs x) = true) ->
  bs_init (x_bs x') = bs_init (x_bs x) -> bs_token (x_bs x') = bs_token (x_bs x) -> bs_blnd (x_bs x') = bs_blnd (x_bs x) ->
  x_tok x' = t -> tok_move (x_tok x) tok from to amt = Ok t -> tok = bs_token (x_bs x) ->
  (if bool_decide (to = bs_addr) then amt else 0) - (if bool_decide (from = bs_addr) then amt else 0) >= hdelta a ->
  bmove c a x x'.
Proof.
  intros H1 Hn Hni H2 H3 H4 Ht H5 -> H6. apply tok_move_spec in H5 as (Ha & Hal & _ & Hb & _). constructor.
  - done.
  - by destruct a.
  - intros H k s v. rewrite Ht, Hal, H2, H4. apply H.
  - assert (held x' >= held x + hdelta a) as Hh.
    { unfold held. rewrite H3, Ht, Hb. 
      rewrite (bool_decide_ext (_ = _ /\ from = bs_addr) (from = bs_addr)) by tauto.
      rewrite (bool_decide_ext (_ = _ /\ to = bs_addr) (to = bs_addr)) by tauto. lia. }
    by destruct a.
  - done.
Qed.

Lemma b_deposit_move c x u p n m x' :
  b_deposit c x u p n = Ok (m, x') ->
  bmove c (ADep u p n m) x x' /\ c_auth c u = true /\ u <> p /\ u <> bs_addr.
Proof.
  unfold b_deposit. intros H. mon H. apply need_auth_ok in E. apply b_nonneg_ok in E0.
  apply emis_frame_b in E2 as (ee & uu & ->). simpl in *.
  apply transfer_move in E3 as [_ E3]. simpl in E3.
  assert (u <> p /\ u <> bs_addr) as [? ?] by lia.
  split; [|done]. eapply move_with_transfer; [|done|done|done|done|done|done|exact E3|done|].
  - eexists _, _. split; [done|]. split; [exact E4|]. split; [lia|]. split; [exact E5|]. split; [exact E6|]. done.
  - rewrite bool_decide_true by done. rewrite bool_decide_false by done. simpl. lia.
Qed.

Lemma b_queue_move c x u p n q x' :
  b_queue c x u p n = Ok (q, x') -> bmove c (AQue u p n) x x' /\ c_auth c u = true /\ q = mkQ4W n (c_now c + Q4W_LOCK_TIME).
Proof.
  unfold b_queue. intros H. mon H. apply need_auth_ok in E. apply b_nonneg_ok in E0.
  apply emis_frame_b in E1 as (ee & uu & ->). simpl in *.
  split; [|split; [done|]].
  - constructor; [|done|intros Ha; eapply allow_ok_frame; [exact Ha|done..]|intros _ _; unfold held; simpl; lia|done]; simpl.
    eexists _, _. split; [done|]. split; [exact E2|]. split; [exact E3|]. done.
  - unfold ub_queue in E2. mon E2. apply u64_ok in E2 as [-> _] || (match goal with E : u64 _ = Ok _ |- _ => apply u64_ok in E as [-> _] end).
    simpl in E4. rewrite last_snoc in E4. by injection E4 as <-.
Qed.

Lemma b_dequeue_move c x u p n x' :
  b_dequeue c x u p n = Ok x' -> bmove c (ADeq u p n) x x' /\ c_auth c u = true.
Proof.
  unfold b_dequeue. intros H. mon H. apply need_auth_ok in E. apply b_nonneg_ok in E0.
  apply emis_frame_b in E1 as (ee & uu & ->). simpl in *. split; [|done].
  constructor; [|done|intros Ha; eapply allow_ok_frame; [exact Ha|done..]|intros _ _; unfold held; simpl; lia|done]; simpl.
  eexists _, _, _. split; [done|]. split; [exact E2|]. split; [exact E3|]. split; [exact E4|]. done.
Qed.

Lemma b_withdraw_move c x u p n r x' :
  b_withdraw c x u p n = Ok (r, x') -> bmove c (AWd u p n r) x x' /\ c_auth c u = true.
Proof.
  unfold b_withdraw. intros H. mon H. apply need_auth_ok in E. apply b_nonneg_ok in E0.
  apply transfer_move in E4 as [_ E4]. simpl in *. split; [|done].
  eapply move_with_transfer; [|done|done|done|done|done|done|exact E4|done|].
  - eexists _, _. split; [done|]. split; [exact E1|]. split; [exact E2|]. split; [lia|]. split; [exact E3|]. done.
  - apply tok_move_spec in E4 as [? _]. rewrite (bool_decide_true (bs_addr = bs_addr)) by done. simpl. case_bool_decide; lia.
Qed.

Lemma b_draw_move c x p n t x' : b_draw c x p n t = Ok x' -> bmove c (ADrw p n) x x' /\ c_auth c p = true.
Proof.
  unfold b_draw. intros H. mon H. apply need_auth_ok in E. apply b_nonneg_ok in E0.
  apply transfer_move in E2 as [_ E2]. simpl in *. split; [|done].
  eapply move_with_transfer; [|done|done|done|done|done|done|exact E2|done|].
  - eexists _. split; [done|]. split; [exact E1|]. done.
  - apply tok_move_spec in E2 as [? _]. rewrite (bool_decide_true (bs_addr = bs_addr)) by done. simpl. case_bool_decide; lia.
Qed.

Lemma b_donate_move c x f p n x' :
  b_donate c x f p n = Ok x' -> bmove c (ADon p n) x x' /\ c_auth c p = true /\ c_auth c f = true.
Proof.
  unfold b_donate. intros H. mon H. apply need_auth_ok in E, E0. apply b_nonneg_ok in E1.
  apply transfer_move in E3 as [_ E3]. simpl in *. split; [|done].
  eapply move_with_transfer; [|done|done|done|done|done|done|exact E3|done|].
  - eexists _. split; [done|]. split; [exact E4|]. done.
  - rewrite bool_decide_true by done. rewrite bool_decide_false by lia. simpl. lia.
Qed.

Lemma b_gulp_pool_move c x p n x' : b_gulp_pool c x p = Ok (n, x') -> bmove c ANone x x'.
Proof.
  unfold b_gulp_pool, approve. intros H. mon H. mon E2. simpl in *. constructor; simpl; try done.
  - intros Ha k s v. simpl. rewrite lookup_insert_Some.
    intros [[[= <- <-] _]|[_ ?]]; [done|]. by eapply Ha.
  - intros _ _. unfold held. simpl. unfold balance. simpl. lia.
Qed.

Definition bfields (x x' : Ext) : Prop :=
  same_bal x x' /\ bs_init (x_bs x') = bs_init (x_bs x) /\ bs_token (x_bs x') = bs_token (x_bs x) /\
  bs_blnd (x_bs x') = bs_blnd (x_bs x) /\ x_tok x' = x_tok x.
Lemma bfields_refl x : bfields x x. Proof. repeat split. Qed.
Lemma bfields_trans x y z : bfields x y -> bfields y z -> bfields x z.
Proof. intros ([] & ? & ? & ? & ?) ([] & ? & ? & ? & ?). repeat split; congruence. Qed.
Lemma bfields_move c x x' : bfields x x' -> bmove c ANone x x'.
Proof. intros (? & ? & ? & ? & ?). by apply none_frame. Qed.
Lemma emis_frame_fields x x' : emis_frame x x' -> bfields x x'.
Proof. intros (e & u & ->). repeat split. Qed.

Lemma b_set_ecfg_fields c x p pb n x' : b_set_ecfg c x p pb n = Ok x' -> bfields x x'.
Proof.
  unfold b_set_ecfg. intros H. mon H. eapply (bfields_trans _ e).
  2:{ repeat split. }
  destruct (bs_ecfg _ !! _).
  - mon E. apply emis_frame_data, emis_frame_fields in E2.
    destruct (_ <? _); mon E; (eapply bfields_trans; [exact E2|]); destruct (negb _); repeat split.
  - mon E. repeat split.
Qed.
Lemma b_gulp_fields c x n x' : b_gulp c x = Ok (n, x') -> bfields x x'.
Proof.
  unfold b_gulp. intros H. mon H.
  match goal with E : foldM (gulp_one _ _ _ _) _ _ = Ok _ |- _ => eapply (foldM_rel bfields) in E end.
  2: apply bfields_refl. 2: intros; by eapply bfields_trans.
  2:{ intros s a s' _ Hs. unfold gulp_one in Hs. mon Hs.
      match goal with E : b_set_ecfg _ _ _ _ _ = Ok _ |- _ => apply b_set_ecfg_fields in E; eapply (bfields_trans _ (set_pemis s a cur)) end.
      - repeat split.
      - match goal with E : bfields _ _ |- _ => eapply bfields_trans; [exact E|] end. repeat split. }
  eapply bfields_trans; [|done]. repeat split.
Qed.

(** ** Claim *)

(** after a claim of [u] at pool [p] a second one at the same time pays nothing *)
Definition settled (c : Ctx) (x : Ext) (p u : Addr) : Prop :=
  forall n x', b_emissions c x p (get_pb x p) u (get_ub x p u) true = Ok (n, x') -> n = 0.

Lemma claim_settled c x p u n x' :
  b_emissions c x p (get_pb x p) u (get_ub x p u) true = Ok (n, x') -> emis_nonneg x -> settled c x' p u.
Proof.
  intros H He m x2 H2. destruct (bs_ecfg (x_bs x) !! p) as [cfg|] eqn:Ec.
  - assert (0 <= ec_eps cfg) by (by eapply He).
    apply (b_emissions_some _ _ _ _ _ _ _ _ _ cfg) in H as (d & d' & ue' & Ed & -> & Hd & Hi & Hu & Ha & Hc); [|done|done].
    apply (b_emissions_some _ _ _ _ _ _ _ _ _ cfg) in H2 as (d2 & d2' & ue2 & Ed2 & _ & Hd2 & Hi2 & Hu2 & Ha2 & Hc2); [|done|done].
    simpl in Ed2. rewrite lookup_insert in Ed2. injection Ed2 as <-.
    unfold buacc, buidx in Ha2. simpl in Ha2. rewrite lookup_insert in Ha2. simpl in Ha2.
    rewrite Hc, Hc2, Hi in Ha2.
    assert (ed_index d2' = ed_index d') as Hd'.
    { destruct Hd2 as [[-> _]|(_ & Hlt & Hle & Hez & Hsz & _)]; [done|].
      change (get_pb (set_buemis (set_bedata x p d') p u ue') p) with (get_pb x p) in *.
      destruct Hd as [[-> Hor]|(Hl & _)]; [|lia]. exfalso. destruct Hor as [?|[?|[?|?]]]; lia. }
    rewrite Hd', Z.sub_diag, Z.mul_0_r, Zdiv_0_l in Ha2. lia.
  - apply b_emissions_none in H as [-> ->]; [|done]. by apply b_emissions_none in H2 as [-> _].
Qed.

(** the state [b_emissions] at one pool leaves the data of the others alone *)
Lemma b_emissions_other c x p pb u ub cl n x' q :
  b_emissions c x p pb u ub cl = Ok (n, x') -> emis_nonneg x -> q <> p ->
  bs_ecfg (x_bs x') = bs_ecfg (x_bs x) /\ bs_edata (x_bs x') !! q = bs_edata (x_bs x) !! q /\
  (forall v, bs_uemis (x_bs x') !! (q, v) = bs_uemis (x_bs x) !! (q, v)).
Proof.
  intros H He Hq. destruct (bs_ecfg (x_bs x) !! p) as [cfg|] eqn:Ec.
  - apply (b_emissions_some _ _ _ _ _ _ _ _ _ cfg) in H as (d & d' & ue' & Ed & -> & _); [|done|by eapply He].
    simpl. split; [done|]. split; [by rewrite lookup_insert_ne|]. intros v. rewrite lookup_insert_ne; [done|congruence].
  - by apply b_emissions_none in H as [_ ->].
Qed.

(** the result of [b_emissions] depends only on the data of its pool *)
Lemma b_emissions_ext c x y p pb u ub cl :
  bs_ecfg (x_bs y) !! p = bs_ecfg (x_bs x) !! p -> bs_edata (x_bs y) !! p = bs_edata (x_bs x) !! p ->
  bs_uemis (x_bs y) !! (p, u) = bs_uemis (x_bs x) !! (p, u) ->
  forall n y', b_emissions c y p pb u ub cl = Ok (n, y') -> exists x', b_emissions c x p pb u ub cl = Ok (n, x').
Proof.
  intros H1 H2 H3 n y'. unfold b_emissions, b_update_data. rewrite H1, H2.
  destruct (bs_ecfg (x_bs x) !! p) as [cfg|]; [|intros H; mon H; eauto].
  destruct (bs_edata (x_bs x) !! p) as [d|]; simpl; [|done].
  assert (forall d y1 x1, bs_uemis (x_bs y1) !! (p, u) = bs_uemis (x_bs x1) !! (p, u) ->
    b_update_user y1 p u d ub cl = Ok (n, y') -> exists x', b_update_user x1 p u d ub cl = Ok (n, x')) as Hu.
  { clear. intros d y1 x1 H. unfold b_update_user, b_set_user. rewrite H.
    destruct (bs_uemis (x_bs x1) !! (p, u)); [destruct (_ || _)|]; [destruct (_ =? _)| |destruct (_ =? _)]; intros H1; mon H1;
      rewrite ?E, ?E0, ?E1; simpl; rewrite ?E, ?E0, ?E1; simpl; rewrite ?E, ?E0, ?E1; simpl; rewrite ?E2; simpl; destruct cl; simplify_eq; eauto. }
  destruct (_ || _) eqn:Ec; simpl.
  - by apply Hu.
  - intros H. mon H. mon E.
    repeat match goal with E : _ = Ok _ |- context [bind ?m _] => match type of E with m = Ok _ => rewrite E; simpl end end.
    eapply Hu; [|exact H]. done.
Qed.

Definition cl_sum (m : gmap Addr Z) (l : list Addr) : Z := sumz (fun p => default 0 (m !! p)) l.

Lemma claim_loop c u ps don n m x n' m' x' :
  foldM (claim_one c u) (n, m, x) ps = Ok (n', m', x') -> emis_nonneg x -> users_nonneg x ->
  (forall p a, m !! p = Some a -> 0 <= a) -> (forall p, p ∈ don -> settled c x p u) -> cl_sum m don <= n ->
  emis_nonneg x' /\ bfields x x' /\ n <= n' /\ (forall p a, m' !! p = Some a -> 0 <= a) /\ cl_sum m' (don ++ ps) <= n'.
Proof.
  revert don n m x. induction ps as [|p ps IH]; simpl; intros don n m x H He Hu Hm Hs Hn.
  { mon H. rewrite app_nil_r. split; [done|]. split; [apply bfields_refl|]. split; [lia|]. done. }
  apply bind_ok in H as ([[n1 m1] x1] & H1 & H). unfold claim_one in H1.
  apply bind_ok in H1 as ([a x2] & E & H1). mon1 H1.
  apply Ok_inj in H1. simplify_eq. apply i128_ok in E0 as [-> _].
  destruct (b_emissions_nonneg _ _ _ _ _ _ _ _ _ E He (users_get _ _ _ Hu)) as [He2 Ha].
  pose proof (emis_frame_fields _ _ (emis_frame_b _ _ _ _ _ _ _ _ _ E)) as Hf.
  apply (IH (don ++ [p])) in H.
  - destruct H as (Q1 & Q2 & Q3 & Q4 & Q5). split; [done|]. split.
    { eapply bfields_trans; [exact Hf|]. eapply bfields_trans; [|exact Q2]. repeat split. }
    split; [lia|]. split; [done|]. by rewrite <- app_assoc in Q5.
  - exact He2.
  - intros q v b. simpl. destruct Hf as ([-> _] & _). apply Hu.
  - intros q b. rewrite lookup_insert_Some. intros [[_ <-]|[_ ?]]; [done|by eapply Hm].
  - intros q Hq. assert (settled c x2 q u) as Hx2.
    { apply elem_of_app in Hq as [Hq|Hq].
      - destruct (decide (q = p)) as [->|Hne]; [by eapply claim_settled|].
        destruct (b_emissions_other _ _ _ _ _ _ _ _ _ q E He Hne) as (O1 & O2 & O3).
        intros k y Hk. destruct Hf as ([F1 F2] & _).
        replace (get_pb x2 q) with (get_pb x q) in Hk by (unfold get_pb; by rewrite F2).
        replace (get_ub x2 q u) with (get_ub x q u) in Hk by (unfold get_ub; by rewrite F1).
        eapply (b_emissions_ext _ x) in Hk as [? Hk]; [|by rewrite O1|done|done]. by eapply Hs in Hk.
      - apply elem_of_list_singleton in Hq as ->. by eapply claim_settled. }
    intros k y Hk.
    change (get_pb (add_log (EvBClaim p u a) x2) q) with (get_pb x2 q) in Hk.
    change (get_ub (add_log (EvBClaim p u a) x2) q u) with (get_ub x2 q u) in Hk.
    eapply (b_emissions_ext _ x2) in Hk as [? Hk]; [|done..]. by eapply Hx2 in Hk.
  - unfold cl_sum in *. rewrite sumz_app. simpl. rewrite lookup_insert. simpl. rewrite Z.add_0_r.
    destruct (decide (p ∈ don)) as [Hin|Hin].
    + assert (a = 0) as -> by (by eapply (Hs p Hin) in E).
      assert (sumz (fun q => default 0 (<[p := 0]> m !! q)) don <= sumz (fun q => default 0 (m !! q)) don); [|lia].
      apply sumz_le. intros q _. destruct (decide (p = q)) as [->|Hne].
      * rewrite lookup_insert. simpl. destruct (m !! q) eqn:Eq; simpl; [by eapply Hm|done].
      * by rewrite lookup_insert_ne.
    + rewrite (sumz_ext _ (fun q => default 0 (m !! q))); [lia|].
      intros q Hq. rewrite lookup_insert_ne; [done|]. by intros ->.
Qed.

Definition cred_sum (l : list BAct) : Z := sumz (fun a => match a with ACred _ _ d _ => d | _ => 0 end) l.

Lemma claim_dep_move c n lp m t x p x' :
  claim_dep n lp m t x p = Ok x' -> 0 < n -> 0 <= lp -> (forall p a, m !! p = Some a -> 0 <= a) -> bs_init (x_bs x) = true ->
  exists sh, bmove c (ACred t p (lp * default 0 (m !! p) / n) sh) x x'.
Proof.
  unfold claim_dep. intros H Hn Hl Hm Hin. mon H. unfold unwrap in E. destruct (m !! p) as [b|] eqn:Ep; [|done].
  injection E as ->. simpl. apply fmul_floor_ok in E0 as [-> _]; [|done].
  pose proof (Hm _ _ Ep) as Ha.
  eexists. constructor; [|done|intros Hal; eapply allow_ok_frame; [exact Hal|done..]|intros _ _; unfold held; simpl; lia|done]. simpl.
  eexists _, _. split; [|split; [exact E1|split; [exact E2|split; [exact E3|done]]]].
  apply Z.div_pos; [|done]. apply Z.mul_nonneg_nonneg; lia.
Qed.

Lemma claim_deps_moves c n lp m t ps x x' :
  foldM (claim_dep n lp m t) x ps = Ok x' -> 0 < n -> 0 <= lp -> (forall p a, m !! p = Some a -> 0 <= a) -> bs_init (x_bs x) = true ->
  exists l, bmoves c l x x' /\ Forall (fun a => exists p d sh, a = ACred t p d sh /\ p ∈ ps) l /\
    n * cred_sum l <= lp * cl_sum m ps.
Proof.
  intros H Hn Hl Hm Hin. revert x H Hin. induction ps as [|p ps IH]; simpl; intros x H Hin; mon1 H.
  { subst. exists []. split; [constructor|]. split; [done|]. unfold cred_sum, cl_sum. simpl. lia. }
  apply (claim_dep_move c) in E as [sh E]; [|done..].
  apply IH in H as (l & Hl1 & Hl2 & Hl3); [|by destruct (bm_init _ _ _ _ E) as [-> _]].
  eexists. split; [econstructor; [exact E|exact Hl1]|]. split.
  - constructor; [eexists _, _, _; split; [done|set_solver]|].
    eapply Forall_impl; [exact Hl2|]. intros a (q & d & s & -> & Hq). eexists _, _, _. split; [done|set_solver].
  - unfold cred_sum, cl_sum in *. simpl.
    pose proof (fdiv_spec (lp * default 0 (m !! p)) n Hn). lia.
Qed.

Lemma b_claim_moves c x u ps t lp n x' :
  b_claim c x u ps t lp = Ok (n, x') -> emis_nonneg x -> users_nonneg x ->
  c_auth c u = true /\
  exists l, bmoves c l x x' /\
   (l = [ANone] \/ exists l', l = ANone :: ALp lp :: l' /\
      Forall (fun a => exists p d sh, a = ACred t p d sh /\ p ∈ ps) l' /\ cred_sum l' <= lp).
Proof.
  unfold b_claim. intros H He Hu. mon1 H. apply need_auth_ok in E. split; [done|].
  mon1 H. apply bind_ok in H as ([[n1 m1] x1] & H1 & H).
  apply (claim_loop _ _ _ []) in H1 as (He1 & Hf & Hn & Hm & Hs); [|done|done|set_solver|set_solver|done].
  simpl in Hs. destruct (0 <? n1) eqn:En; mon H.
  - apply (claim_deps_moves c) in E2 as (l & Hl1 & Hl2 & Hl3); [|lia|by apply mint_spec in E1 as [? _]|done|done].
    exists (ANone :: ALp lp :: l). split; [econstructor; [by apply bfields_move|]; econstructor; [|exact Hl1]|].
    + pose proof (mint_spec _ _ _ _ _ E1) as (M1 & M2 & _ & M3). pose proof (tok_move_spec _ _ _ _ _ _ E0) as (T1 & T2 & _ & T3 & _).
      constructor; [split; [split; done|done]|split; [done|split; done]| | |done].
      * intros Ha k s v. simpl. rewrite M2, T2. apply Ha.
      * intros Ha Hne. unfold held. simpl. rewrite M3, T3. 
        repeat case_bool_decide; destruct_and?; try lia; exfalso; tauto.
    + right. eexists. split; [done|]. split; [done|]. 
      pose proof (mint_spec _ _ _ _ _ E1) as (M1 & _).
      assert (n * cred_sum l <= n * lp); [|nia]. etransitivity; [exact Hl3|]. nia.
  - exists [ANone]. split; [|by left]. econstructor; [by apply bfields_move|constructor].
Qed.

(** ** Transactions as moves *)
Lemma mem_addr_elem a sg : mem_addr a sg = true <-> a ∈ sg.
Proof.
  unfold mem_addr. rewrite existsb_exists. setoid_rewrite <- elem_of_list_In.
  split; [intros (b & Hb & E); assert (a = b) as -> by lia; done|intros H; exists a; split; [done|lia]].
Qed.
Lemma signer_pos sg a : forallb ok_signer sg = true -> a ∈ sg -> 3 < a.
Proof. intros H Hin. rewrite forallb_forall in H. apply elem_of_list_In in Hin. apply H in Hin. unfold ok_signer in Hin. lia. Qed.

(** installed pools have negative addresses *)
Lemma dep_addr_neg ad sa : dep_addr ad sa < 0.
Proof. unfold dep_addr. lia. Qed.
Lemma pools_neg w : reachable w -> forall a p, w_pools w !! a = Some p -> a < 0.
Proof.
  revert w. apply (reach_inv (fun w => forall a p, w_pools w !! a = Some p -> a < 0)).
  - intros w (now & seq & t & o & lp & -> & _) a p. simpl. by rewrite lookup_empty.
  - intros w o out w' H E a p. unfold exec in E. destruct o.
    + mon E. simpl. apply H.
    + mon E. simpl. rewrite lookup_insert_Some. intros [[<- _]|[_ ?]]; [|by eapply H].
      unfold unwrap in E0. destruct (w_pools w !! pool) eqn:Ep; [|done]. by eapply H.
    + mon E. destruct (w_pools w !! _) eqn:Ep in E; [done|]. mon E. simpl. rewrite lookup_insert_Some. intros [[<- _]|[_ ?]]; [|by eapply H].
      apply dep_addr_neg.
    + mon E. destruct (w_pools w !! _) in E; [done|]. mon E. simpl. rewrite lookup_insert_Some. intros [[<- _]|[_ ?]]; [lia|by eapply H].
    + mon E. simpl. apply H.
    + mon E. simpl. apply H.
    + mon E. simpl. apply H.
    + mon E. simpl. rewrite lookup_insert_Some. intros [[<- _]|[_ ?]]; [|by eapply H].
      unfold unwrap in E0. destruct (w_pools w !! pool) eqn:Ep; [|done]. by eapply H.
    + mon E. simpl. rewrite lookup_insert_Some. intros [[<- _]|[_ ?]]; [|by eapply H].
      unfold unwrap in E0. destruct (w_pools w !! pool) eqn:Ep; [|done]. by eapply H.
    + mon E. simpl. apply H.
Qed.

Definition sig_of (o : Op) : list Addr :=
  match o with OExt sg _ | OPool sg _ _ | ODeploy sg _ _ _ _ _ => sg | _ => [] end.

(** the moves of a transaction *)
Definition acts_of (o : Op) (out : Out) (l : list BAct) : Prop :=
  match o with
  | OExt sg (BDeposit u p n) => u ∈ sg /\ u <> p /\ exists m, out = OutZ m /\ l = [ADep u p n m]
  | OExt sg (BQueue u p n) => u ∈ sg /\ l = [AQue u p n]
  | OExt sg (BDequeue u p n) => u ∈ sg /\ l = [ADeq u p n]
  | OExt sg (BWithdraw u p n) => u ∈ sg /\ exists r, out = OutZ r /\ l = [AWd u p n r]
  | OExt sg (BDraw p n t) => p ∈ sg /\ l = [ADrw p n]
  | OExt sg (BDonate f p n) => f ∈ sg /\ p ∈ sg /\ l = [ADon p n]
  | OExt sg (BInit _ _ _ _ _ _) => l = [AInit]
  | OExt sg (BClaim u ps t lp) => u ∈ sg /\ (l = [ANone] \/ exists l', l = ANone :: ALp lp :: l' /\
      Forall (fun a => exists p d sh, a = ACred t p d sh /\ p ∈ ps) l' /\ cred_sum l' <= lp)
  | OPool sg a _ => Forall (fun b => b = ANone \/ exists n, b = ADrw a n \/ b = ADon a n) l
  | _ => l = [ANone]
  end.

Lemma bfields_mint x t n x' : em_mint x t n = Ok x' -> bmove (mkCtx 0 0 (fun _ => true)) ANone x x'.
Proof.
  unfold em_mint. intros H. mon H. apply mint_spec in E as (M1 & M2 & _ & M3). constructor; [done|done| | |done].
  - intros Ha k s v. simpl. rewrite M2. apply Ha.
  - intros _ _. unfold held. simpl. rewrite M3. case_bool_decide; lia.
Qed.
Lemma bmove_none_ctx c c' x x' : bmove c ANone x x' -> bmove c' ANone x x'.
Proof. intros []. by constructor. Qed.
Lemma bmove_none_trans c x y z : bmove c ANone x y -> bmove c ANone y z -> bmove c ANone x z.
Proof.
  intros [[A1 A2] (B1 & B2 & B3) C D _] [[A1' A2'] (B1' & B2' & B3') C' D' _]. constructor; [| | | |done].
  - split; congruence.
  - repeat split; congruence.
  - auto.
  - intros Ha Hn. specialize (D Ha Hn). specialize (D' (C Ha)). rewrite B2, B3 in D'. specialize (D' Hn). simpl in *. lia.
Qed.
Lemma bmove_none_refl c x : bmove c ANone x x.
Proof. apply bfields_move, bfields_refl. Qed.

Lemma execute_distribute_move c x b n x' : em_execute_distribute c x b = Ok (n, x') -> bmove c ANone x x'.
Proof.
  unfold em_execute_distribute. intros H. mon H. apply bfields_mint in E2 || (match goal with E : em_mint _ _ _ = Ok _ |- _ => apply bfields_mint in E end).
  eapply bmove_none_trans; [|eapply bmove_none_ctx; eassumption]. by apply bfields_move.
Qed.
Lemma em_drop_move c x l x' : em_drop c x l = Ok x' -> bmove c ANone x x'.
Proof.
  unfold em_drop. intros H. mon H. 
  match goal with E : foldM (fun x p => em_mint _ _ _) _ _ = Ok ?y |- _ => apply (bmove_none_trans _ _ y); [revert E|by apply bfields_move] end.
  apply (foldM_rel (bmove c ANone)).
  - intros; apply bmove_none_refl.
  - intros; by eapply bmove_none_trans.
  - intros s a s' _ Hs. apply bfields_mint in Hs. by eapply bmove_none_ctx.
Qed.

Lemma xmoves_bmoves c self x x' :
  xmoves c self x x' -> self < 0 -> (forall a, c_auth c a = true -> 3 < a) ->
  exists l, bmoves c l x x' /\ Forall (fun b => b = ANone \/ exists n, b = ADrw self n \/ b = ADon self n) l.
Proof.
  intros H Hs Ha. induction H as [x|x y z Hm _ (l & Hl1 & Hl2)]; [exists []; split; [constructor|done]|].
  assert (forall a, bmove (as_contract c self) a x y -> bmove c a x y) as Hc.
  { intros a []. constructor; done. }
  inversion Hm; subst.
  - exists (ANone :: l). split; [|by constructor; [left|]]. econstructor; [|done]. eapply none_move; [|eassumption].
    unfold bs_addr. destruct H as [H| ->]; [apply Ha in H|]; lia.
  - exists (ANone :: l). split; [|by constructor; [left|]]. econstructor; [|done]. by eapply none_spend.
  - apply b_draw_move in H as [H _]. eexists (_ :: l). split; [econstructor; [by apply Hc|done]|]. constructor; [eauto|done].
  - apply b_donate_move in H as [H _]. eexists (_ :: l). split; [econstructor; [by apply Hc|done]|]. constructor; [eauto|done].
  - apply b_gulp_pool_move in H. eexists (_ :: l). split; [econstructor; [by apply Hc|done]|]. constructor; [eauto|done].
  - exists (ANone :: l). split; [|by constructor; [left|]]. econstructor; [|done]. by apply none_frame.
Qed.

Lemma exec_bmoves w o out w' :
  exec w o = Ok (out, w') -> reachable w -> emis_nonneg (w_ext w) -> users_nonneg (w_ext w) ->
  exists l, bmoves (ctx w (sig_of o)) l (w_ext w) (w_ext w') /\ acts_of o out l.
Proof.
  intros H Hr He Hu. unfold exec in H. destruct o as [sg o|sg a o|sg ad sa orc ra mp|b|dt ds|orc|n|b t u|b r|].
  2:{ apply assert_ok in H as [G H]. apply andb_prop in G as [G _]. mon H. simpl in *. apply p_exec_xmoves in E0. simpl in E0.
      apply xmoves_bmoves in E0; [done| |].
      - unfold unwrap in E. destruct (w_pools w !! a) eqn:Ep; [|done]. by eapply pools_neg.
      - intros b Hb. simpl in Hb. apply mem_addr_elem in Hb. by eapply signer_pos. }
  2:{ mon H. destruct (w_pools w !! _); [done|]. mon H. exists [ANone]. split; [|done]. apply bmoves_one. by apply none_frame. }
  2:{ mon H. destruct (w_pools w !! _); [done|]. mon H. exists [ANone]. split; [|done]. apply bmoves_one. by apply none_frame. }
  2-7: mon H; exists [ANone]; (split; [|done]); apply bmoves_one; by apply none_frame.
  apply assert_ok in H as [G H]. apply andb_prop in G as [G Ht]. mon H. simpl in *.
  assert (forall a, mem_addr a sg = true -> 3 < a) as Hsg.
  { intros a Ha. apply mem_addr_elem in Ha. by eapply signer_pos. }
  assert (forall x', bmove (ctx w sg) ANone (w_ext w) x' -> exists l, bmoves (ctx w sg) l (w_ext w) x' /\ l = [ANone]) as Hnone.
  { intros x' Hx. exists [ANone]. split; [by apply bmoves_one|done]. }
  destruct o; simpl in E; unfold ret_unit, ret_z in E; mon E; simpl; try apply Hnone.
  - unfold em_initialize in E0. mon E0. by apply none_frame.
  - unfold em_distribute in E0. mon E0. by apply execute_distribute_move in E0.
  - unfold em_queue_swap in E0. mon E0. by apply none_frame.
  - unfold em_cancel_swap in E0. mon E0. by apply none_frame.
  - unfold em_swap_backstop in E0. mon E0.
    match goal with E : em_execute_distribute _ _ _ = Ok _ |- _ => apply execute_distribute_move in E; eapply bmove_none_trans; [exact E|] end.
    by apply none_frame.
  - by apply em_drop_move in E0.
  - unfold fa_initialize in E0. mon E0. by apply none_frame.
  - unfold b_initialize in E0. mon E0. exists [AInit]. split; [|done]. apply bmoves_one. constructor; simpl; try done.
    + destruct (bs_init (x_bs (w_ext w))); [done|done].
    + intros Ha k s v Hv. simpl in *. split; [done|]. apply Ha in Hv as [Hv _]. by rewrite Hv in G0.
  - apply b_deposit_move in E0 as (E0 & Ha & Hn & _). simpl in Ha. apply mem_addr_elem in Ha.
    eexists. split; [by apply bmoves_one|]. split; [done|]. split; [done|]. eauto.
  - apply b_queue_move in E0 as (E0 & Ha & _). simpl in Ha. apply mem_addr_elem in Ha.
    eexists. split; [by apply bmoves_one|]. done.
  - apply b_dequeue_move in E0 as (E0 & Ha). simpl in Ha. apply mem_addr_elem in Ha.
    eexists. split; [by apply bmoves_one|]. done.
  - apply b_withdraw_move in E0 as (E0 & Ha). simpl in Ha. apply mem_addr_elem in Ha.
    eexists. split; [by apply bmoves_one|]. split; [done|]. eauto.
  - apply b_draw_move in E0 as (E0 & Ha). simpl in Ha. apply mem_addr_elem in Ha.
    eexists. split; [by apply bmoves_one|]. done.
  - apply b_donate_move in E0 as (E0 & Ha & Hb). simpl in Ha, Hb. apply mem_addr_elem in Ha, Hb.
    eexists. split; [by apply bmoves_one|]. done.
  - unfold b_update_tkn_val in E0. mon E0. by apply none_frame.
  - unfold b_drop in E0. mon E0. apply em_drop_move in E0. by eapply bmove_none_ctx.
  - unfold b_add_reward in E0. mon E0. destruct (_ <? _); mon E0; by apply none_frame.
  - apply b_gulp_fields in E0. by apply bfields_move.
  - by apply b_gulp_pool_move in E0.
  - apply b_claim_moves in E0 as (Ha & l & Hl1 & Hl2); [|done|done]. simpl in Ha. apply mem_addr_elem in Ha.
    exists l. split; [done|]. split; [done|]. exact Hl2.
  - apply transfer_move in E0 as [Ha E0]. simpl in Ha. apply Hsg in Ha. eapply none_move; [|exact E0]. unfold bs_addr. lia.
  - unfold approve in E0. mon E0. apply need_auth_ok in E. simpl in E. apply Hsg in E. apply none_tok.
    + intros k s. left. simpl. rewrite lookup_insert_ne; [done|]. intros [= -> -> ->]. unfold bs_addr in E. lia.
    + intros _ _. unfold held, balance. simpl. lia.
  - by eapply none_spend.
  - unfold burn in E0. mon E0. apply need_auth_ok in E. simpl in E. apply Hsg in E. apply none_tok.
    + intros k s. by left.
    + intros _ _. unfold held. simpl. rewrite balance_set_balance. rewrite bool_decide_false; [lia|]. unfold bs_addr. intros []. lia.
  - apply mint_spec in E0 as (M1 & M2 & _ & M3). apply none_tok.
    + intros k s. left. by rewrite M2.
    + intros _ _. unfold held. simpl. rewrite M3. case_bool_decide; lia.
Qed.
