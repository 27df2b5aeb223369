(** * Backstop: invariants of the share accounting *)
From Verif Require Import Base Types Token Emitter Factory Backstop PoolReserve PoolUser PoolHealth
  PoolAuction PoolSubmit PoolEmis PoolAdmin World Facts XMove Spec FrameFacts PoolFrame PoolCfg BackMoves.

(** ** Sums over users of one pool *)

(** the total of [f] over all users that have a balance with pool [p] *)
Definition usum (f : UserBal -> Z) (x : Ext) (p : Addr) : Z :=
  sumz (fun e => if fst (fst e) =? p then f (snd e) else 0) (map_to_list (bs_user (x_bs x))).

Lemma sumz_gmap_insert {K V} `{Countable K} (f : K * V -> Z) (m : gmap K V) k v :
  sumz f (map_to_list (<[k := v]> m)) =
  sumz f (map_to_list m) + f (k, v) - match m !! k with Some b => f (k, b) | None => 0 end.
Proof.
  destruct (m !! k) as [b|] eqn:E.
  - rewrite <- (insert_delete_insert m).
    rewrite (sumz_perm f _ _ (map_to_list_insert _ _ v (lookup_delete m k))).
    rewrite <- (insert_delete m k b E) at 2.
    rewrite (sumz_perm f _ _ (map_to_list_insert _ _ b (lookup_delete m k))). simpl. lia.
  - rewrite (sumz_perm f _ _ (map_to_list_insert _ _ v E)). simpl. lia.
Qed.

Lemma usum_upd f x x' p u ub q :
  f (mkUserBal 0 []) = 0 -> bs_user (x_bs x') = <[(p, u) := ub]> (bs_user (x_bs x)) ->
  usum f x' q = usum f x q + if p =? q then f ub - f (get_ub x p u) else 0.
Proof.
  intros Hf H. unfold usum. rewrite H, sumz_gmap_insert. simpl. unfold get_ub.
  destruct (bs_user (x_bs x) !! (p, u)); simpl; destruct (p =? q); lia.
Qed.
Lemma usum_same f x x' q : bs_user (x_bs x') = bs_user (x_bs x) -> usum f x' q = usum f x q.
Proof. intros H. unfold usum. by rewrite H. Qed.

(** any list of distinct users sums to at most the total *)
Lemma usum_list f x p l :
  (forall p u b, bs_user (x_bs x) !! (p, u) = Some b -> 0 <= f b) -> f (mkUserBal 0 []) = 0 -> NoDup l ->
  sumz (fun u => f (get_ub x p u)) l <= usum f x p.
Proof.
  intros Hn H0 Hl. unfold usum.
  rewrite (sumz_support _ l).
  set (l' := filter (fun u => f (get_ub x p u) <> 0) l).
  assert (NoDup l') as Hl' by (by apply NoDup_filter).
  assert (forall u, u ∈ l' -> exists b, bs_user (x_bs x) !! (p, u) = Some b) as Hin.
  { intros u Hu. apply elem_of_list_filter in Hu as [Hu _]. unfold get_ub in Hu.
    destruct (bs_user (x_bs x) !! (p, u)) eqn:E; [eauto|]. simpl in Hu. congruence. }
  clearbody l'. clear Hl l.
  assert (forall e, e ∈ map_to_list (bs_user (x_bs x)) -> 0 <= (if fst (fst e) =? p then f (snd e) else 0)) as Hpos.
  { intros [[q u] b] He. simpl. apply elem_of_map_to_list in He. destruct (q =? p); [by eapply Hn|done]. }
  assert (NoDup (map_to_list (bs_user (x_bs x)))) as Hnd by apply NoDup_map_to_list.
  assert (forall u, u ∈ l' -> ((p, u), get_ub x p u) ∈ map_to_list (bs_user (x_bs x))) as Hin2.
  { intros u Hu. destruct (Hin u Hu) as [b Hb]. apply elem_of_map_to_list. unfold get_ub. by rewrite Hb. }
  clear Hin. revert Hpos Hnd Hin2. generalize (map_to_list (bs_user (x_bs x))). intros m Hpos Hnd Hin2.
  revert m Hpos Hnd Hin2. induction l' as [|u l IH]; intros m Hpos Hnd Hin; simpl.
  - by apply sumz_nonneg.
  - apply NoDup_cons in Hl' as [Hu Hl]. assert (((p, u), get_ub x p u) ∈ m) as Hm by (apply Hin; set_solver).
    apply elem_of_list_split in Hm as (m1 & m2 & ->).
    rewrite sumz_app. simpl. rewrite Z.eqb_refl.
    specialize (IH Hl (m1 ++ m2)). rewrite sumz_app in IH.
    assert (sumz (fun u => f (get_ub x p u)) l <= sumz (fun e => if fst (fst e) =? p then f (snd e) else 0) m1 +
      sumz (fun e => if fst (fst e) =? p then f (snd e) else 0) m2); [|lia].
    apply IH.
    + intros e He. apply Hpos. set_solver.
    + apply NoDup_app in Hnd as (N1 & N2 & N3). apply NoDup_cons in N3 as [N3 N4]. apply NoDup_app. split; [done|]. split; [|done].
      intros e He. specialize (N2 e He). set_solver.
    + intros v Hv. assert (v <> u) by (by intros ->). assert (((p, v), get_ub x p v) ∈ m1 ++ ((p, u), get_ub x p u) :: m2) as Hv' by (apply Hin; set_solver).
      rewrite elem_of_app, elem_of_cons in Hv'. rewrite elem_of_app. destruct Hv' as [?|[[= ? _]|?]]; [by left|congruence|by right].
Qed.

(** ** The accounting invariant *)
Record binv (now : Z) (x : Ext) : Prop := mkBinv {
  bi_users : forall p u b, bs_user (x_bs x) !! (p, u) = Some b ->
    0 <= ub_shares b /\ Forall (fun q => 0 <= q_amount q /\ q_exp q <= now + Q4W_LOCK_TIME) (ub_q4w b) /\
    Z.of_nat (length (ub_q4w b)) <= 21 /\ Sorted (fun a b => q_exp a <= q_exp b) (ub_q4w b);
  bi_pools : forall p, 0 <= pb_tokens (get_pb x p) /\
    pb_shares (get_pb x p) = usum ub_shares x p + usum queued x p /\
    pb_q4w (get_pb x p) = usum queued x p;
  bi_init : bs_init (x_bs x) = false -> forall p, pb_tokens (get_pb x p) = 0
}.

Lemma bi_get now x p u : binv now x ->
  0 <= ub_shares (get_ub x p u) /\ Forall (fun q => 0 <= q_amount q /\ q_exp q <= now + Q4W_LOCK_TIME) (ub_q4w (get_ub x p u)) /\
  Z.of_nat (length (ub_q4w (get_ub x p u))) <= 21 /\ Sorted (fun a b => q_exp a <= q_exp b) (ub_q4w (get_ub x p u)).
Proof.
  intros H. unfold get_ub. destruct (_ !! _) eqn:E; simpl; [by eapply bi_users|]. repeat split; try done.
Qed.
Lemma queued_nonneg b now : Forall (fun q => 0 <= q_amount q /\ q_exp q <= now) (ub_q4w b) -> 0 <= queued b.
Proof. intros H. apply sumz_nonneg. intros q Hq. rewrite Forall_forall in H. by apply H. Qed.
Lemma binv_users now x : binv now x -> users_nonneg x.
Proof. intros H p u b Hb. by eapply bi_users in Hb as [? _]. Qed.
Lemma usum_nonneg f x p : (forall p u b, bs_user (x_bs x) !! (p, u) = Some b -> 0 <= f b) -> 0 <= usum f x p.
Proof.
  intros H. apply sumz_nonneg. intros [[q u] b] Hb. simpl. apply elem_of_map_to_list in Hb. destruct (q =? p); [by eapply H|done].
Qed.
Lemma binv_usum now x p : binv now x -> 0 <= usum ub_shares x p /\ 0 <= usum queued x p.
Proof.
  intros H. split; apply usum_nonneg; intros q u b Hb; eapply bi_users in Hb as (? & ? & _); try done. by eapply queued_nonneg.
Qed.
Lemma binv_pool now x p : binv now x -> 0 <= pb_q4w (get_pb x p) <= pb_shares (get_pb x p) /\ 0 <= pb_tokens (get_pb x p).
Proof. intros H. destruct (bi_pools _ _ H p) as (? & -> & ->). destruct (binv_usum _ _ p H). lia. Qed.

Lemma to_shares_nonneg now x p n m : binv now x -> 0 <= n -> to_shares (get_pb x p) n = Ok m ->
  0 <= m /\ (pb_shares (get_pb x p) = 0 /\ m = n \/ 0 < pb_shares (get_pb x p) /\ 0 < pb_tokens (get_pb x p) /\ m = n * pb_shares (get_pb x p) / pb_tokens (get_pb x p)).
Proof.
  intros H Hn Hm. destruct (binv_pool _ _ p H) as [H1 H2]. unfold to_shares in Hm. destruct (pb_shares _ =? 0) eqn:E.
  - mon Hm. split; [lia|]. left. lia.
  - assert (0 < pb_tokens (get_pb x p)).
    { destruct (decide (pb_tokens (get_pb x p) = 0)) as [Hz|]; [|lia]. unfold fmul_floor, div_floor in Hm. mon1 Hm. rewrite Hz in Hm. discriminate. }
    apply fmul_floor_ok in Hm as [-> _]; [|lia]. split; [apply Z.div_pos; [|lia]; apply Z.mul_nonneg_nonneg; lia|]. right. lia.
Qed.
Lemma to_tokens_nonneg now x p n m : binv now x -> 0 <= n -> to_tokens (get_pb x p) n = Ok m ->
  0 <= m /\ (pb_shares (get_pb x p) = 0 /\ m = n \/ 0 < pb_shares (get_pb x p) /\ m = n * pb_tokens (get_pb x p) / pb_shares (get_pb x p)).
Proof.
  intros H Hn Hm. destruct (binv_pool _ _ p H) as [H1 H2]. unfold to_tokens in Hm. destruct (pb_shares _ =? 0) eqn:E.
  - mon Hm. split; [lia|]. left. lia.
  - apply fmul_floor_ok in Hm as [-> _]; [|lia]. split; [apply Z.div_pos; [|lia]; apply Z.mul_nonneg_nonneg; lia|]. right. lia.
Qed.

(** ** The dequeue loop *)

(** [q'] is [q] with exactly [n] shares removed from the front *)
Definition taken_oldest (n : Z) (q q' : list Q4W) : Prop :=
  exists gone rest, q = gone ++ rest /\
    ((q' = rest /\ sumz q_amount gone = n) \/
     exists a e rest2, rest = mkQ4W a e :: rest2 /\ q' = mkQ4W (sumz q_amount gone + a - n) e :: rest2 /\
       sumz q_amount gone <= n < sumz q_amount gone + a).

Lemma dequeue_loop_spec now req n q lft q' B :
  dequeue_loop now req n q = Ok (lft, q') -> 0 <= n -> Forall (fun e => 0 <= q_amount e /\ q_exp e <= B) q -> lft <= 0 ->
  taken_oldest n q q' /\ (req = true -> forall e, e ∈ q -> e ∉ q' -> q_exp e <= now).
Proof.
  revert n. induction q as [|e q IH]; simpl; intros n H Hn Hf Hl.
  - mon H. split; [|set_solver]. exists [], []. split; [done|]. left. split; [done|]. simpl. lia.
  - inversion Hf as [|? ? [Ha Hb] Hf']; subst. destruct (negb req || (q_exp e <=? now)) eqn:Er; [|done].
    assert (req = true -> q_exp e <= now) as Hexp by (intros ->; simpl in Er; lia).
    destruct (n <? q_amount e) eqn:E1; [|destruct (q_amount e =? n) eqn:E2].
    + mon H. apply i128_ok in E as [-> _]. split.
      * exists [], (e :: q). split; [done|]. right. exists (q_amount e), (q_exp e), q. destruct e; simpl in *. split; [done|]. split; [done|]. lia.
      * intros Hreq d Hd Hd'. apply elem_of_cons in Hd as [->|Hd]; [auto|]. exfalso. apply Hd'. set_solver.
    + mon H. split.
      * exists [e], q'. split; [done|]. left. split; [done|]. simpl. lia.
      * intros Hreq d Hd Hd'. apply elem_of_cons in Hd as [->|Hd]; [auto|done].
    + mon H. apply i128_ok in E as [-> _]. apply IH in H as [(gone & rest & -> & Hor) Hx]; [|lia|done|done]. split.
      * exists (e :: gone), rest. split; [done|]. simpl. destruct Hor as [[-> Hsum]|(a & ex & rest2 & -> & -> & Hle)].
        -- left. split; [done|]. lia.
        -- right. exists a, ex, rest2. split; [done|]. split; [f_equal; f_equal; lia|]. lia.
      * intros Hreq d Hd Hd'. apply elem_of_cons in Hd as [->|Hd]; [auto|by apply Hx].
Qed.

Lemma sorted_app_r {A} (R : A -> A -> Prop) l1 l2 : Sorted R (l1 ++ l2) -> Sorted R l2.
Proof. induction l1 as [|a l1 IH]; simpl; [done|]. intros H. inversion H; auto. Qed.
Lemma sorted_swap_head a b l : q_exp a = q_exp b -> Sorted (fun x y => q_exp x <= q_exp y) (a :: l) -> Sorted (fun x y => q_exp x <= q_exp y) (b :: l).
Proof. intros He H. inversion H as [|? ? H1 H2]; subst. constructor; [done|]. inversion H2; constructor; lia. Qed.

Lemma taken_oldest_facts n q q' B :
  taken_oldest n q q' -> Forall (fun e => 0 <= q_amount e /\ q_exp e <= B) q -> Sorted (fun x y => q_exp x <= q_exp y) q ->
  sumz q_amount q' = sumz q_amount q - n /\ Forall (fun e => 0 <= q_amount e /\ q_exp e <= B) q' /\
  (length q' <= length q)%nat /\ Sorted (fun x y => q_exp x <= q_exp y) q'.
Proof.
  intros (gone & rest & -> & Hor) Hf Hs. apply Forall_app in Hf as [Hf1 Hf2]. apply sorted_app_r in Hs.
  rewrite sumz_app, app_length. destruct Hor as [[-> <-]|(a & e & r2 & -> & -> & Hle)].
  - split; [lia|]. split; [done|]. split; [lia|done].
  - inversion Hf2 as [|? ? [H1 H2] H3]; subst. simpl in *. split; [lia|]. split; [constructor; [simpl; lia|done]|]. split; [lia|].
    eapply sorted_swap_head; [|exact Hs]. done.
Qed.

Lemma ub_dequeue_spec c b n req b' B :
  ub_dequeue c b n req = Ok b' -> 0 <= n -> Forall (fun e => 0 <= q_amount e /\ q_exp e <= B) (ub_q4w b) ->
  ub_shares b' = ub_shares b /\ taken_oldest n (ub_q4w b) (ub_q4w b') /\
  (req = true -> forall e, e ∈ ub_q4w b -> e ∉ ub_q4w b' -> q_exp e <= c_now c).
Proof.
  unfold ub_dequeue. intros H Hn Hf. mon H. simpl. split; [done|]. eapply dequeue_loop_spec; [exact E|done|done|lia].
Qed.

(** ** Preservation *)
Lemma get_pb_upd x x' p pb q : bs_pool (x_bs x') = <[p := pb]> (bs_pool (x_bs x)) ->
  get_pb x' q = if p =? q then pb else get_pb x q.
Proof.
  intros H. unfold get_pb. rewrite H. destruct (Z.eqb_spec p q) as [->|Hne]; [by rewrite lookup_insert|by rewrite lookup_insert_ne].
Qed.
Lemma get_pb_same x x' q : bs_pool (x_bs x') = bs_pool (x_bs x) -> get_pb x' q = get_pb x q.
Proof. intros H. unfold get_pb. by rewrite H. Qed.
Lemma get_ub_upd x x' p u ub q v : bs_user (x_bs x') = <[(p, u) := ub]> (bs_user (x_bs x)) ->
  get_ub x' q v = if bool_decide (p = q /\ u = v) then ub else get_ub x q v.
Proof.
  intros H. unfold get_ub. rewrite H. case_bool_decide as E; [destruct E as [-> ->]; by rewrite lookup_insert|].
  rewrite lookup_insert_ne; [done|]. intros [= -> ->]. tauto.
Qed.
Lemma get_ub_same x x' q v : bs_user (x_bs x') = bs_user (x_bs x) -> get_ub x' q v = get_ub x q v.
Proof. intros H. unfold get_ub. by rewrite H. Qed.

Definition ub_ok (now : Z) (b : UserBal) : Prop :=
  0 <= ub_shares b /\ Forall (fun q => 0 <= q_amount q /\ q_exp q <= now + Q4W_LOCK_TIME) (ub_q4w b) /\
  Z.of_nat (length (ub_q4w b)) <= 21 /\ Sorted (fun a b => q_exp a <= q_exp b) (ub_q4w b).

(** what one user move does to the totals *)
Lemma binv_upd now x x' p u pb ub :
  binv now x -> upd_bal x x' p u pb ub -> bs_init (x_bs x') = bs_init (x_bs x) -> ub_ok now ub -> 0 <= pb_tokens pb ->
  pb_shares pb - pb_shares (get_pb x p) = ub_shares ub + queued ub - ub_shares (get_ub x p u) - queued (get_ub x p u) ->
  pb_q4w pb - pb_q4w (get_pb x p) = queued ub - queued (get_ub x p u) ->
  (bs_init (x_bs x) = false -> pb_tokens pb = 0) -> binv now x'.
Proof.
  intros H [Hu Hp] Hi Hub Ht Hs Hq H0. constructor.
  - intros q v b. rewrite Hu, lookup_insert_Some. intros [[_ <-]|[_ Hb]]; [done|by eapply bi_users].
  - intros q. destruct (bi_pools _ _ H q) as (A1 & A2 & A3). rewrite (get_pb_upd _ _ _ _ _ Hp), !(usum_upd _ _ _ _ _ _ _ eq_refl Hu).
    destruct (Z.eqb_spec p q) as [->|Hne]; lia.
  - rewrite Hi. intros Hf q. rewrite (get_pb_upd _ _ _ _ _ Hp). destruct (p =? q); [auto|by apply (bi_init _ _ H)].
Qed.

Lemma pb_deposit_ok b t s b' : pb_deposit b t s = Ok b' -> b' = mkPoolBal (pb_shares b + s) (pb_tokens b + t) (pb_q4w b).
Proof. unfold pb_deposit. intros H. mon H. apply i128_ok in E as [-> _], E0 as [-> _]. by destruct b. Qed.
Lemma pb_withdraw_ok b t s b' : pb_withdraw b t s = Ok b' ->
  b' = mkPoolBal (pb_shares b - s) (pb_tokens b - t) (pb_q4w b - s) /\ t <= pb_tokens b /\ s <= pb_shares b /\ s <= pb_q4w b.
Proof. unfold pb_withdraw. intros H. mon H. apply i128_ok in E as [-> _], E0 as [-> _], E1 as [-> _]. split; [done|]. lia. Qed.
Lemma ub_add_ok b n b' : ub_add b n = Ok b' -> b' = mkUserBal (ub_shares b + n) (ub_q4w b).
Proof. unfold ub_add. intros H. mon H. apply i128_ok in E as [-> _]. by destruct b. Qed.
Lemma ub_queue_ok c b n b' : ub_queue c b n = Ok b' ->
  b' = mkUserBal (ub_shares b - n) (ub_q4w b ++ [mkQ4W n (c_now c + Q4W_LOCK_TIME)]) /\ n <= ub_shares b /\ Z.of_nat (length (ub_q4w b)) < 21.
Proof.
  unfold ub_queue, MAX_Q4W_SIZE. intros H. mon H. apply i128_ok in E as [-> _], E0 as [-> _] || (apply i128_ok in E as [-> _]; apply u64_ok in E0 as [-> _]).
  split; [done|]. lia.
Qed.
Lemma pb_queue_ok b n b' : pb_queue b n = Ok b' -> b' = mkPoolBal (pb_shares b) (pb_tokens b) (pb_q4w b + n).
Proof. unfold pb_queue. intros H. mon H. apply i128_ok in E as [-> _]. by destruct b. Qed.
Lemma pb_dequeue_ok b n b' : pb_dequeue b n = Ok b' -> b' = mkPoolBal (pb_shares b) (pb_tokens b) (pb_q4w b - n) /\ n <= pb_q4w b.
Proof. unfold pb_dequeue. intros H. mon H. apply i128_ok in E as [-> _]. destruct b; simpl in *. split; [done|lia]. Qed.

Lemma sorted_snoc l e : Sorted (fun a b => q_exp a <= q_exp b) l -> Forall (fun q => q_exp q <= q_exp e) l ->
  Sorted (fun a b => q_exp a <= q_exp b) (l ++ [e]).
Proof.
  induction l as [|a l IH]; simpl; intros H Hf; [repeat constructor|]. inversion H as [|? ? H1 H2]; subst. inversion Hf; subst.
  constructor; [auto|]. inversion H2; subst; simpl; constructor; done.
Qed.

Lemma bmove_binv c a x x' : bmove c a x x' -> binv (c_now c) x -> binv (c_now c) x'.
Proof.
  intros [Hb Hi _ _ Hin] H. destruct a; simpl in *.
  - destruct Hb as [Hu Hp], Hi as (Hi & _). constructor.
    + rewrite Hu. apply H.
    + intros q. rewrite (get_pb_same _ _ _ Hp), !(usum_same _ _ _ _ Hu). apply H.
    + rewrite Hi. intros Hf q. rewrite (get_pb_same _ _ _ Hp). by apply H.
  - destruct Hb as [Hu Hp]. constructor.
    + rewrite Hu. apply H.
    + intros q. rewrite (get_pb_same _ _ _ Hp), !(usum_same _ _ _ _ Hu). apply H.
    + intros _ q. rewrite (get_pb_same _ _ _ Hp). by apply H.
  - destruct Hb as [[Hu Hp] _], Hi as (Hi & _). constructor.
    + rewrite Hu. apply H.
    + intros q. rewrite (get_pb_same _ _ _ Hp), !(usum_same _ _ _ _ Hu). apply H.
    + rewrite Hi. intros Hf q. rewrite (get_pb_same _ _ _ Hp). by apply H.
  - destruct Hb as (pb & ub & Ha & Hs & _ & Hpb & Hub & Hup). apply pb_deposit_ok in Hpb as ->. apply ub_add_ok in Hub as ->.
    eapply to_shares_nonneg in Hs as [Hm _]; [|done|done]. destruct (bi_get _ _ p u H) as (U1 & U2 & U3 & U4).
    destruct (binv_pool _ _ p H).
    eapply binv_upd; [done|exact Hup|by apply Hi| |simpl; lia|unfold queued; simpl; lia|unfold queued; simpl; lia|].
    + split; simpl; [lia|done].
    + rewrite Hin by done. done.
  - destruct Hb as (pb & ub & Ha & Hub & Hpb & Hup). apply pb_queue_ok in Hpb as ->. apply ub_queue_ok in Hub as (-> & Hn & Hl).
    destruct (bi_get _ _ p u H) as (U1 & U2 & U3 & U4). destruct (binv_pool _ _ p H).
    assert (queued (mkUserBal (ub_shares (get_ub x p u) - n) (ub_q4w (get_ub x p u) ++ [mkQ4W n (c_now c + Q4W_LOCK_TIME)])) = queued (get_ub x p u) + n) as Hq.
    { unfold queued. simpl. rewrite sumz_app. simpl. lia. }
    eapply binv_upd; [done|exact Hup|by apply Hi| |simpl; lia|rewrite Hq; simpl; lia|rewrite Hq; simpl; lia|].
    + split; simpl; [lia|]. split; [|split].
      * apply Forall_app. split; [done|]. constructor; [simpl; lia|constructor].
      * rewrite app_length. simpl. lia.
      * apply sorted_snoc; [done|]. eapply Forall_impl; [exact U2|]. simpl. lia.
    + intros Hf. simpl. by apply H.
  - destruct Hb as (pb & ub1 & ub & Ha & Hd & Hub & Hpb & Hup). apply pb_dequeue_ok in Hpb as [-> Hle]. apply ub_add_ok in Hub as ->.
    destruct (bi_get _ _ p u H) as (U1 & U2 & U3 & U4). destruct (binv_pool _ _ p H).
    eapply ub_dequeue_spec in Hd as (D1 & D2 & _); [|done|exact U2].
    eapply taken_oldest_facts in D2 as (T1 & T2 & T3 & T4); [|exact U2|done].
    eapply binv_upd; [done|exact Hup|by apply Hi| |simpl; lia|unfold queued; simpl; lia|unfold queued; simpl; lia|].
    + split; simpl; [lia|]. split; [done|]. split; [lia|done].
    + intros Hf. simpl. by apply H.
  - destruct Hb as (pb & ub & Ha & Hd & Ht & Hr & Hpb & Hup). apply pb_withdraw_ok in Hpb as (-> & Hle & Hle2 & Hle3).
    destruct (bi_get _ _ p u H) as (U1 & U2 & U3 & U4). destruct (binv_pool _ _ p H).
    eapply ub_dequeue_spec in Hd as (D1 & D2 & _); [|done|exact U2].
    eapply taken_oldest_facts in D2 as (T1 & T2 & T3 & T4); [|exact U2|done].
    eapply binv_upd; [done|exact Hup|by apply Hi| |simpl; lia|unfold queued; simpl; lia|unfold queued; simpl; lia|].
    + split; simpl; [lia|]. split; [done|]. split; [lia|done].
    + rewrite Hin by done. done.
  - destruct Hb as (pb & Ha & Hpb & Hu & Hp). apply pb_withdraw_ok in Hpb as (-> & Hle & Hle2 & Hle3). constructor.
    + rewrite Hu. apply H.
    + intros q. rewrite (get_pb_upd _ _ _ _ _ Hp), !(usum_same _ _ _ _ Hu). destruct (bi_pools _ _ H q).
      destruct (Z.eqb_spec p q) as [->|]; [simpl|done]. lia.
    + destruct Hi as [-> _]. rewrite Hin by done. done.
  - destruct Hb as (pb & Ha & Hpb & Hu & Hp). apply pb_deposit_ok in Hpb as ->. constructor.
    + rewrite Hu. apply H.
    + intros q. rewrite (get_pb_upd _ _ _ _ _ Hp), !(usum_same _ _ _ _ Hu). destruct (bi_pools _ _ H q).
      destruct (Z.eqb_spec p q) as [->|]; [simpl|done]. lia.
    + destruct Hi as [-> _]. rewrite Hin by done. done.
  - destruct Hb as (pb & ub & Ha & Hs & Hpb & Hub & Hup). apply pb_deposit_ok in Hpb as ->. apply ub_add_ok in Hub as ->.
    eapply to_shares_nonneg in Hs as [Hm _]; [|done|done]. destruct (bi_get _ _ p u H) as (U1 & U2 & U3 & U4).
    destruct (binv_pool _ _ p H).
    eapply binv_upd; [done|exact Hup|by apply Hi| |simpl; lia|unfold queued; simpl; lia|unfold queued; simpl; lia|].
    + split; simpl; [lia|done].
    + rewrite Hin by done. done.
Qed.
