(** * Facts: inversion of results, fixed point arithmetic, finite sums *)
From Verif Require Import Base Types.

(** ** Results *)
Lemma bind_ok {A B} (m : res A) (k : A -> res B) b :
  bind m k = Ok b -> exists a, m = Ok a /\ k a = Ok b.
Proof. destruct m; simpl; [eauto|discriminate]. Qed.

Lemma assert_ok {A} (b : bool) e (k : res A) r :
  (if b then k else Err e) = Ok r -> b = true /\ k = Ok r.
Proof. destruct b; [auto|discriminate]. Qed.

Lemma assert_ok' {A} (b : bool) e (k : res A) r :
  (if b then Err e else k) = Ok r -> b = false /\ k = Ok r.
Proof. destruct b; [discriminate|auto]. Qed.

Lemma Ok_inj {A} (a b : A) : Ok a = Ok b -> a = b.
Proof. congruence. Qed.

(** one inversion step on [H : _ = Ok _] *)
Ltac mon1 H :=
  lazymatch type of H with
  | bind ?m (fun x => _) = Ok _ =>
      let a := fresh x in let E := fresh "E" in
      apply bind_ok in H; destruct H as (a & E & H); cbv beta in H
  | bind ?m _ = Ok _ =>
      let a := fresh "v" in let E := fresh "E" in
      apply bind_ok in H; destruct H as (a & E & H); cbv beta in H
  | (if _ then _ else Err _) = Ok _ =>
      let E := fresh "G" in apply assert_ok in H; destruct H as [E H]
  | (if _ then Err _ else _) = Ok _ =>
      let E := fresh "G" in apply assert_ok' in H; destruct H as [E H]
  | (let '(_, _) := ?p in _) = Ok _ =>
      tryif is_var p then destruct p else destruct p eqn:?
  | Ok (_, _) = Ok (_, _) => apply Ok_inj in H; inversion H; clear H; subst
  | Ok _ = Ok _ => apply Ok_inj in H; subst
  | Err _ = Ok _ => discriminate H
  end; try (cbv beta iota zeta in H).
Ltac mon H := repeat mon1 H.

(** ** Machine integers *)
Lemma i128_ok x y : i128 x = Ok y -> y = x /\ i128_min <= x <= i128_max.
Proof.
  unfold i128, in_i128. destruct (_ && _) eqn:E; [|discriminate]. intros [= <-].
  apply andb_prop in E as [H1 H2]. lia.
Qed.
Lemma u64_ok x y : u64 x = Ok y -> y = x /\ 0 <= x <= u64_max.
Proof.
  unfold u64, in_u64. destruct (_ && _) eqn:E; [|discriminate]. intros [= <-].
  apply andb_prop in E as [H1 H2]. lia.
Qed.
Lemma u32_ok x y : u32 x = Ok y -> y = x /\ 0 <= x <= u32_max.
Proof.
  unfold u32, in_u32. destruct (_ && _) eqn:E; [|discriminate]. intros [= <-].
  apply andb_prop in E as [H1 H2]. lia.
Qed.
Lemma i128_is x : i128_min <= x <= i128_max -> i128 x = Ok x.
Proof. intros H. unfold i128, in_i128. replace (_ && _) with true; [done|]. symmetry. apply andb_true_intro; lia. Qed.
Lemma u64_is x : 0 <= x <= u64_max -> u64 x = Ok x.
Proof. intros H. unfold u64, in_u64. replace (_ && _) with true; [done|]. symmetry. apply andb_true_intro; lia. Qed.
Lemma u32_is x : 0 <= x <= u32_max -> u32 x = Ok x.
Proof. intros H. unfold u32, in_u32. replace (_ && _) with true; [done|]. symmetry. apply andb_true_intro; lia. Qed.

Lemma in_i128_iff x : in_i128 x = true <-> i128_min <= x <= i128_max.
Proof. unfold in_i128. rewrite andb_true_iff, !Z.leb_le. lia. Qed.
Lemma in_u64_iff x : in_u64 x = true <-> 0 <= x <= u64_max.
Proof. unfold in_u64. rewrite andb_true_iff, !Z.leb_le. lia. Qed.
Lemma in_u32_iff x : in_u32 x = true <-> 0 <= x <= u32_max.
Proof. unfold in_u32. rewrite andb_true_iff, !Z.leb_le. lia. Qed.

(** numeric values of the bounds, for [lia] *)
Lemma i128_max_val : i128_max = 170141183460469231731687303715884105727. Proof. reflexivity. Qed.
Lemma i128_min_val : i128_min = -170141183460469231731687303715884105728. Proof. reflexivity. Qed.
Lemma u64_max_val : u64_max = 18446744073709551615. Proof. reflexivity. Qed.
Lemma u32_max_val : u32_max = 4294967295. Proof. reflexivity. Qed.
Ltac vals := rewrite ?i128_max_val, ?i128_min_val, ?u64_max_val, ?u32_max_val in *;
  unfold SCALAR_7, SCALAR_9, SECONDS_PER_YEAR, SECONDS_PER_WEEK in *.

(** ** Division.  [cdiv] is the ceiling of the exact quotient. *)
Definition cdiv (a b : Z) : Z := - ((- a) / b).

Lemma cdiv_spec a b : 0 < b -> a <= b * cdiv a b < a + b.
Proof. intros Hb. unfold cdiv. pose proof (Z.div_mod (-a) b ltac:(lia)). pose proof (Z.mod_pos_bound (-a) b Hb). nia. Qed.
Lemma fdiv_spec a b : 0 < b -> b * (a / b) <= a < b * (a / b) + b.
Proof. intros Hb. pose proof (Z.div_mod a b ltac:(lia)). pose proof (Z.mod_pos_bound a b Hb). nia. Qed.
Lemma cdiv_mono a a' b : 0 < b -> a <= a' -> cdiv a b <= cdiv a' b.
Proof. intros Hb H. unfold cdiv. pose proof (Z.div_le_mono (-a') (-a) b Hb ltac:(lia)). lia. Qed.
Lemma cdiv_nonneg a b : 0 < b -> 0 <= a -> 0 <= cdiv a b.
Proof. intros Hb H. pose proof (cdiv_spec a b Hb). nia. Qed.
Lemma cdiv_pos a b : 0 < b -> 0 < a -> 0 < cdiv a b.
Proof. intros Hb H. pose proof (cdiv_spec a b Hb). nia. Qed.
Lemma cdiv_exact a b : 0 < b -> cdiv (b * a) b = a.
Proof. intros Hb. unfold cdiv. replace (- (b * a)) with ((- a) * b) by lia. rewrite Z.div_mul; lia. Qed.
Lemma cdiv_le_iff a b q : 0 < b -> cdiv a b <= q <-> a <= b * q.
Proof. intros Hb. pose proof (cdiv_spec a b Hb). nia. Qed.
Lemma div_le_iff a b q : 0 < b -> q <= a / b <-> b * q <= a.
Proof. intros Hb. pose proof (fdiv_spec a b Hb). nia. Qed.
Lemma cdiv_ge_div a b : 0 < b -> a / b <= cdiv a b.
Proof. intros Hb. pose proof (cdiv_spec a b Hb). pose proof (fdiv_spec a b Hb). nia. Qed.

Lemma div_floor_ok r z v : 0 < z -> div_floor r z = Ok v -> v = r / z /\ i128_min <= v <= i128_max.
Proof.
  intros Hz. unfold div_floor.
  destruct (z =? 0) eqn:E; [lia|].
  destruct ((r <? 0) || _) eqn:E2; intros H; apply i128_ok in H as [-> H]; (split; [|exact H]); clear H.
  - assert (r < 0) as Hr by (apply orb_prop in E2 as [?|?]; [lia|]; apply andb_prop in H; lia).
    rewrite Z.abs_eq by lia.
    pose proof (Z.quot_opp_l (-r) z ltac:(lia)) as Hq. rewrite Z.opp_involutive in Hq. rewrite Hq.
    rewrite Z.quot_div_nonneg by lia.
    pose proof (fdiv_spec (-r) z Hz). pose proof (fdiv_spec r z Hz).
    pose proof (Z.mod_pos_bound r z Hz). pose proof (Z.div_mod r z ltac:(lia)).
    destruct (0 <? r mod z) eqn:E3; nia.
  - apply orb_false_iff in E2 as [E2 E3]. apply Z.quot_div_nonneg; lia.
Qed.

Lemma div_ceil_ok r z v : 0 < z -> div_ceil r z = Ok v -> v = cdiv r z /\ i128_min <= v <= i128_max.
Proof.
  intros Hz. unfold div_ceil.
  destruct (z =? 0) eqn:E; [lia|].
  destruct ((r <=? 0) || _) eqn:E2; intros H; apply i128_ok in H as [-> H]; (split; [|exact H]); clear H.
  - assert (r <= 0) as Hr by (apply orb_prop in E2 as [?|?]; [lia|]; apply andb_prop in H; lia).
    pose proof (Z.quot_opp_l (-r) z ltac:(lia)) as Hq. rewrite Z.opp_involutive in Hq. rewrite Hq.
    rewrite Z.quot_div_nonneg by lia. reflexivity.
  - apply orb_false_iff in E2 as [E2 E3].
    rewrite Z.abs_eq by lia. rewrite Z.quot_div_nonneg by lia.
    pose proof (cdiv_spec r z Hz). pose proof (fdiv_spec r z Hz).
    pose proof (Z.mod_pos_bound r z Hz). pose proof (Z.div_mod r z ltac:(lia)).
    destruct (0 <? r mod z) eqn:E4; nia.
Qed.

Lemma fmul_floor_ok x y d v : 0 < d -> fmul_floor x y d = Ok v -> v = x * y / d /\ i128_min <= v <= i128_max.
Proof. intros Hd H. unfold fmul_floor in H. mon H. apply i128_ok in E as [-> _]. by apply div_floor_ok in H. Qed.
Lemma fmul_ceil_ok x y d v : 0 < d -> fmul_ceil x y d = Ok v -> v = cdiv (x * y) d /\ i128_min <= v <= i128_max.
Proof. intros Hd H. unfold fmul_ceil in H. mon H. apply i128_ok in E as [-> _]. by apply div_ceil_ok in H. Qed.
Lemma fdiv_floor_ok x y d v : 0 < y -> fdiv_floor x y d = Ok v -> v = x * d / y /\ i128_min <= v <= i128_max.
Proof. intros Hd H. unfold fdiv_floor in H. mon H. apply i128_ok in E as [-> _]. by apply div_floor_ok in H. Qed.
Lemma fdiv_ceil_ok x y d v : 0 < y -> fdiv_ceil x y d = Ok v -> v = cdiv (x * d) y /\ i128_min <= v <= i128_max.
Proof. intros Hd H. unfold fdiv_ceil in H. mon H. apply i128_ok in E as [-> _]. by apply div_ceil_ok in H. Qed.

Lemma fmul_range x y d v : fmul_floor x y d = Ok v -> i128_min <= x * y <= i128_max.
Proof. unfold fmul_floor. intros H; mon H. by apply i128_ok in E as [_ ?]. Qed.

(** computation of the four operations on non-negative operands, for liveness *)
Lemma div_floor_is r z : 0 < z -> 0 <= r <= i128_max -> div_floor r z = Ok (r / z).
Proof.
  intros Hz Hr. unfold div_floor.
  destruct (z =? 0) eqn:E; [lia|].
  destruct ((r <? 0) || _) eqn:E2.
  { exfalso. apply orb_prop in E2 as [?|E2]; [lia|]. apply andb_prop in E2; lia. }
  rewrite Z.quot_div_nonneg by lia. apply i128_is. pose proof (fdiv_spec r z Hz). vals. nia.
Qed.

(** ** Finite sums *)
Definition sumz {A} (f : A -> Z) (l : list A) : Z := foldr (fun a s => f a + s) 0 l.

Lemma sumz_app {A} (f : A -> Z) l1 l2 : sumz f (l1 ++ l2) = sumz f l1 + sumz f l2.
Proof. induction l1; simpl; lia. Qed.
Lemma sumz_ext {A} (f g : A -> Z) l : (forall a, a ∈ l -> f a = g a) -> sumz f l = sumz g l.
Proof.
  induction l as [|a l IH]; intros H; simpl; [done|].
  rewrite (H a), IH; auto; [intros; apply H|]; set_solver.
Qed.
Lemma sumz_le {A} (f g : A -> Z) l : (forall a, a ∈ l -> f a <= g a) -> sumz f l <= sumz g l.
Proof.
  induction l as [|a l IH]; intros H; simpl; [done|].
  assert (f a <= g a) by (apply H; set_solver).
  assert (sumz f l <= sumz g l) by (apply IH; intros; apply H; set_solver). lia.
Qed.
Lemma sumz_add {A} (f g : A -> Z) l : sumz (fun a => f a + g a) l = sumz f l + sumz g l.
Proof. induction l; simpl; lia. Qed.
Lemma sumz_mul {A} (f : A -> Z) k l : sumz (fun a => k * f a) l = k * sumz f l.
Proof. induction l; simpl; lia. Qed.
Lemma sumz_nonneg {A} (f : A -> Z) l : (forall a, a ∈ l -> 0 <= f a) -> 0 <= sumz f l.
Proof.
  induction l as [|a l IH]; intros H; simpl; [lia|].
  assert (0 <= f a) by (apply H; set_solver).
  assert (0 <= sumz f l) by (apply IH; intros; apply H; set_solver). lia.
Qed.
Lemma sumz_zero {A} (f : A -> Z) l : (forall a, a ∈ l -> f a = 0) -> sumz f l = 0.
Proof.
  intros H. induction l as [|a l IH]; simpl; [done|].
  rewrite (H a), IH; [done| |]; set_solver.
Qed.
Lemma sumz_perm {A} (f : A -> Z) l1 l2 : l1 ≡ₚ l2 -> sumz f l1 = sumz f l2.
Proof. induction 1; simpl; lia. Qed.
Lemma sumz_map {A B} (g : A -> B) (f : B -> Z) l : sumz f (map g l) = sumz (fun a => f (g a)) l.
Proof. induction l; simpl; congruence. Qed.
Lemma sumz_split {A} `{EqDecision A} (f : A -> Z) l a :
  NoDup l -> a ∈ l -> sumz f l = f a + sumz f (filter (fun x => x <> a) l).
Proof.
  induction l as [|b l IH]; intros Hn Hin; [set_solver|].
  apply NoDup_cons in Hn as [Hb Hn]. rewrite filter_cons.
  destruct (decide (b = a)) as [->|Hne].
  - rewrite decide_False by auto. simpl. f_equal. f_equal.
    assert (filter (fun x => x <> a) l = l) as ->; [|done].
    clear -Hb. induction l as [|c l IH]; [done|]. rewrite filter_cons, decide_True by set_solver.
    f_equal. apply IH. set_solver.
  - rewrite decide_True by done. simpl. rewrite (IH Hn) by set_solver. lia.
Qed.
(** changing one summand *)
Lemma sumz_upd {A} `{EqDecision A} (f g : A -> Z) l a :
  NoDup l -> a ∈ l -> (forall b, b <> a -> g b = f b) -> sumz g l = sumz f l - f a + g a.
Proof.
  intros Hn Hin H. rewrite (sumz_split f l a), (sumz_split g l a) by done.
  rewrite (sumz_ext g f (filter _ l)); [lia|].
  intros b Hb. apply elem_of_list_filter in Hb as [? _]. by apply H.
Qed.
(** two lists that contain the support have the same sum *)
Lemma sumz_support {A} `{EqDecision A} (f : A -> Z) l :
  sumz f l = sumz f (filter (fun x => f x <> 0) l).
Proof.
  induction l as [|a l IH]; [done|]. rewrite filter_cons.
  destruct (decide (f a <> 0)); simpl; lia.
Qed.
Lemma sumz_cover {A} `{EqDecision A} (f : A -> Z) l1 l2 :
  NoDup l1 -> NoDup l2 -> (forall a, a ∉ l1 -> f a = 0) -> (forall a, a ∉ l2 -> f a = 0) ->
  sumz f l1 = sumz f l2.
Proof.
  intros N1 N2 H1 H2. rewrite (sumz_support f l1), (sumz_support f l2).
  apply sumz_perm. apply NoDup_Permutation; [by apply NoDup_filter..|].
  intros x. rewrite !elem_of_list_filter. split; intros [Hx Hin]; (split; [done|]).
  - destruct (decide (x ∈ l2)); [done|]. exfalso. auto.
  - destruct (decide (x ∈ l1)); [done|]. exfalso. auto.
Qed.
(** a member is at most a non-negative sum *)
Lemma sumz_ge_elem {A} `{EqDecision A} (f : A -> Z) l a :
  (forall b, b ∈ l -> 0 <= f b) -> a ∈ l -> f a <= sumz f l.
Proof.
  induction l as [|b l IH]; intros H Hin; [set_solver|]. simpl.
  assert (0 <= f b) by (apply H; set_solver).
  assert (0 <= sumz f l) by (apply sumz_nonneg; intros; apply H; set_solver).
  apply elem_of_cons in Hin as [->|Hin]; [lia|].
  assert (f a <= sumz f l) by (apply IH; [intros; apply H; set_solver|done]). lia.
Qed.

(** ** Loops *)
Lemma foldM_inv {A S} (P : S -> Prop) (f : S -> A -> res S) l s s' :
  (forall s a s', a ∈ l -> P s -> f s a = Ok s' -> P s') -> P s -> foldM f s l = Ok s' -> P s'.
Proof.
  revert s. induction l as [|a l IH]; simpl; intros s Hstep Hs H; [by injection H as <-|].
  mon1 H. eapply IH; [| |exact H].
  - intros; eapply Hstep; eauto; set_solver.
  - eapply Hstep; eauto; set_solver.
Qed.
Lemma foldM_app {A S} (f : S -> A -> res S) l1 l2 s :
  foldM f s (l1 ++ l2) = bind (foldM f s l1) (fun s => foldM f s l2).
Proof. revert s. induction l1 as [|a l1 IH]; simpl; intros s; [done|]. destruct (f s a); simpl; auto. Qed.
(** a reflexive and transitive relation along a loop *)
Lemma foldM_rel {A S} (R : S -> S -> Prop) (f : S -> A -> res S) l s s' :
  (forall s, R s s) -> (forall a b c, R a b -> R b c -> R a c) ->
  (forall s a s', a ∈ l -> f s a = Ok s' -> R s s') -> foldM f s l = Ok s' -> R s s'.
Proof.
  intros Hr Ht. revert s. induction l as [|a l IH]; simpl; intros s Hstep H; [injection H as <-; auto|].
  mon1 H. eapply Ht; [eapply Hstep; eauto; set_solver|].
  eapply IH; [|exact H]. intros; eapply Hstep; eauto; set_solver.
Qed.

(** ** Sorted entries of a map *)
Lemma kinsert_perm {V} k (v : V) l : kinsert k v l ≡ₚ (k, v) :: l.
Proof.
  induction l as [|[k' v'] l IH]; simpl; [done|]. destruct (k <=? k'); [done|].
  rewrite IH. apply Permutation_swap.
Qed.
Lemma ksort_perm {V} (l : list (Z * V)) : ksort l ≡ₚ l.
Proof. induction l as [|[k v] l IH]; simpl; [done|]. rewrite kinsert_perm, IH. done. Qed.
Lemma entries_perm {V} (m : gmap Z V) : entries m ≡ₚ map_to_list m.
Proof. apply ksort_perm. Qed.
Lemma elem_of_entries {V} (m : gmap Z V) k v : (k, v) ∈ entries m <-> m !! k = Some v.
Proof. rewrite entries_perm. apply elem_of_map_to_list. Qed.
Lemma entries_fst_NoDup {V} (m : gmap Z V) : NoDup (entries m).*1.
Proof. rewrite entries_perm. apply NoDup_fst_map_to_list. Qed.
Lemma entries_NoDup {V} (m : gmap Z V) : NoDup (entries m).
Proof. rewrite entries_perm. apply NoDup_map_to_list. Qed.
Lemma entries_empty {V} : entries (∅ : gmap Z V) = [].
Proof. unfold entries. by rewrite map_to_list_empty. Qed.
Lemma entries_nil {V} (m : gmap Z V) : entries m = [] -> m = ∅.
Proof.
  intros H. apply map_to_list_empty_iff. apply Permutation_nil.
  rewrite <- (entries_perm m), H. done.
Qed.
