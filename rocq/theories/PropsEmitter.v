(** * Properties of the emitter: C49, C50, C51 *)
From Verif Require Import Base Types Token Emitter Factory Backstop PoolReserve PoolUser PoolHealth
  PoolAuction PoolSubmit PoolEmis PoolAdmin World Facts XMove Spec FrameFacts.

(** ** Observers *)
Definition emitter (w : World) : EmitterSt := x_em (w_ext w).
Definition tokens (w : World) : Tok := x_tok (w_ext w).
(** increase of the total supply of BLND between two worlds *)
Definition blnd_created (w w' : World) : Z :=
  total_of (tokens w') (em_blnd (emitter w)) - total_of (tokens w) (em_blnd (emitter w)).

(** ** Lemmas *)
Lemma em_mint_spec x to amt x' :
  em_mint x to amt = Ok x' ->
  0 <= amt /\ x_em x' = x_em x /\
  (forall k, total_of (x_tok x') k = total_of (x_tok x) k + if em_blnd (x_em x) =? k then amt else 0) /\
  (forall k a, balance (x_tok x') k a =
     balance (x_tok x) k a + if bool_decide (em_blnd (x_em x) = k /\ to = a) then amt else 0).
Proof.
  unfold em_mint. intros H. mon H. apply mint_spec in E as (? & ? & ? & ?). simpl. auto.
Qed.

Lemma em_mints_spec l x x' :
  foldM (fun x p => em_mint x p.1 p.2) x l = Ok x' ->
  Forall (fun p => 0 <= p.2) l /\ x_em x' = x_em x /\
  (forall k, total_of (x_tok x') k = total_of (x_tok x) k + if em_blnd (x_em x) =? k then sumz snd l else 0).
Proof.
  revert x. induction l as [|[a n] l IH]; simpl; intros x H; mon1 H.
  - subst. repeat split; auto. intros k. destruct (_ =? _); lia.
  - apply em_mint_spec in E as (? & Hem & Ht & _). apply IH in H as (? & Hem' & Ht').
    rewrite Hem in *. repeat split; [by constructor|done|].
    intros k. rewrite Ht', Ht. simpl in *. destruct (_ =? _); lia.
Qed.

(** the mint loop keeps the emitter *)
Ltac mints_as Hx :=
  match goal with H : foldM (fun x p => em_mint x p.1 p.2) _ _ = Ok _ |- _ =>
    apply em_mints_spec in H as (_ & Hx & _) end.

Lemma sum_loop_ok (l : list (Z * Z)) s v :
  foldM (fun s p => i128 (s + p.2)) s l = Ok v -> v = s + sumz snd l.
Proof.
  revert s. induction l as [|e l IH]; simpl; intros s H; mon1 H; [subst; lia|].
  apply i128_ok in E as [-> _]. apply IH in H. simpl in *. lia.
Qed.

Lemma em_execute_distribute_spec c x b n x' :
  em_execute_distribute c x b = Ok (n, x') ->
  exists last, em_last (x_em x) !! b = Some last /\ last <= c_now c /\ n = (c_now c - last) * SCALAR_7 /\
  x_em x' = x_em x <| em_last := <[b := c_now c]> (em_last (x_em x)) |> /\
  (forall k, total_of (x_tok x') k = total_of (x_tok x) k + if em_blnd (x_em x) =? k then n else 0) /\
  (forall k a, balance (x_tok x') k a =
     balance (x_tok x) k a + if bool_decide (em_blnd (x_em x) = k /\ b = a) then n else 0).
Proof.
  unfold em_execute_distribute, em_get_last. intros H. mon H.
  destruct (em_last (x_em x) !! b) as [l|] eqn:El; [|discriminate]. injection E as <-.
  apply u64_ok in E0 as [-> ?]. apply i128_ok in E1 as [-> ?].
  apply em_mint_spec in E2 as (? & Hem & Ht & Hb). simpl in *.
  exists l. repeat split; auto. lia.
Qed.

(** which operations can change the emitter *)
Lemma exec_em w o out w' :
  exec w o = Ok (out, w') ->
  match o with
  | OExt _ (EInit _ _ _) | OExt _ EDistribute | OExt _ (EQueueSwap _ _) | OExt _ ECancelSwap
  | OExt _ ESwap | OExt _ (EDrop _) | OExt _ BDrop => True
  | _ => emitter w' = emitter w
  end.
Proof.
  unfold exec, emitter. destruct o as [sg o|sg a o|sg ad sa orc ra mp|a|dt ds|orc|n|a t u|a r|]; intros H; mon H; try done.
  - apply x_exec_em in E. by destruct o.
  - apply same_p_exec in E0 as (? & _). done.
  - destruct (w_pools w !! _); mon H. done.
  - destruct (w_pools w !! _); mon H. done.
Qed.

(** ** C49: one BLND per second *)

(** BLND created by a transaction, counting distribute and swap transactions only *)
Definition emitted (w : World) (o : Op) (w' : World) : Z :=
  match o with
  | OExt _ EDistribute | OExt _ ESwap => blnd_created w w'
  | _ => 0
  end.

Definition last_of_current (w : World) : option Z := em_last (emitter w) !! em_backstop (emitter w).

Lemma emitted_step w o out w' last :
  exec w o = Ok (out, w') -> em_init (emitter w) = true -> last_of_current w = Some last ->
  em_init (emitter w') = true /\
  exists last', last_of_current w' = Some last' /\ emitted w o w' = SCALAR_7 * (last' - last).
Proof.
  intros H Hi Hl. pose proof (exec_em _ _ _ _ H) as Hem.
  assert (emitter w' = emitter w -> match o with OExt _ EDistribute | OExt _ ESwap => False | _ => True end ->
    em_init (emitter w') = true /\
    exists last', last_of_current w' = Some last' /\ emitted w o w' = SCALAR_7 * (last' - last)) as Htriv.
  { intros He Ho. unfold last_of_current. rewrite He. split; [done|]. exists last. split; [done|].
    unfold emitted. destruct o as [sg o'| | | | | | | | |]; try lia. destruct o'; try lia; done. }
  destruct o as [sg o|sg a o|sg ad sa orc ra mp|a|dt ds|orc|n|a t u|a r|]; try (by apply Htriv).
  unfold exec in H. mon1 H.
  destruct o; try (by apply Htriv); mon H; clear Htriv Hem;
    unfold x_exec, ret_unit, ret_z in E; mon E; unfold emitter, last_of_current in *; simpl.
  - (* init *) unfold em_initialize in E0. mon E0. rewrite Hi in G0. discriminate.
  - (* distribute *) unfold em_distribute in E0. mon E0.
    apply em_execute_distribute_spec in E0 as (l & Hl' & Hle & -> & Hem & Ht & _).
    unfold emitter in *. rewrite Hl in Hl'. injection Hl' as <-.
    split; [simpl; by rewrite Hem|]. exists (w_now w). simpl. rewrite Hem. simpl. rewrite lookup_insert. split; [done|].
    unfold blnd_created, tokens, emitter. simpl. rewrite Ht, Z.eqb_refl. simpl in *. lia.
  - (* queue *) unfold em_queue_swap in E0. mon E0. simpl. split; [done|]. exists last. split; [done|lia].
  - (* cancel *) unfold em_cancel_swap in E0. mon E0. simpl. split; [done|]. exists last. split; [done|lia].
  - (* swap *) unfold em_swap_backstop in E0. mon E0.
    apply em_execute_distribute_spec in E1 as (l & Hl' & Hle & -> & Hem & Ht & _).
    unfold emitter in *. rewrite Hl in Hl'. injection Hl' as <-. simpl in *.
    split; [simpl; by rewrite Hem|]. exists (w_now w). simpl. rewrite Hem. simpl. rewrite lookup_insert. split; [done|].
    unfold blnd_created, tokens, emitter. simpl. rewrite Ht, Z.eqb_refl. lia.
  - (* drop *) unfold em_drop in E0. mon E0. mints_as Hem.
    simpl. rewrite Hem. split; [done|]. exists last. simpl. rewrite ?Hem. split; [done|lia].
  - (* backstop drop *) unfold b_drop, em_drop in E0. mon E0. mints_as Hem.
    simpl. rewrite Hem. split; [done|]. exists last. simpl. rewrite ?Hem. split; [done|lia].
Qed.

(** C49.  From the transaction that initializes the emitter on, whatever happens,
    the BLND created by distribute and swap transactions is exactly 10^7 units
    (one token) per second between initialization and the last distribution of the
    backstop that is current now. *)
Theorem C49_one_blnd_per_second : forall w0 sg blnd backstop token out w1 l,
  exec w0 (OExt sg (EInit blnd backstop token)) = Ok (out, w1) ->
  exists last, last_of_current (run w1 l) = Some last /\
    sumh emitted w1 l = 10000000 * (last - w_now w1).
Proof.
  intros w0 sg blnd bk tok out w1 l H.
  assert (em_init (emitter w1) = true /\ last_of_current w1 = Some (w_now w1)) as [Hi Hl].
  { simpl in H. mon H. unfold ret_unit in E. mon E. unfold em_initialize in E0. mon E0.
    unfold emitter, last_of_current; simpl. rewrite lookup_insert. done. }
  clear H.
  assert (forall l w last0 last1, em_init (emitter w) = true -> last_of_current w = Some last1 ->
    exists last, last_of_current (run w l) = Some last /\
    sumh emitted w l = 10000000 * (last - last0) - 10000000 * (last1 - last0)) as Hgen.
  { clear. induction l as [|o l IH]; simpl; intros w last0 last1 Hi Hl.
    - exists last1. split; [done|lia].
    - unfold step. destruct (exec w o) as [[out w']|] eqn:E.
      + destruct (emitted_step _ _ _ _ _ E Hi Hl) as (Hi' & last' & Hl' & He).
        destruct (IH w' last0 last' Hi' Hl') as (last & Hr & Hs). exists last. split; [done|].
        rewrite He, Hs. vals. lia.
      + destruct (IH w last0 last1 Hi Hl) as (last & Hr & Hs). exists last. split; [done|].
        rewrite Hs. unfold emitted, blnd_created. destruct o as [? []| | | | | | | | |]; lia. }
  destruct (Hgen l w1 (w_now w1) _ Hi Hl) as (last & Hr & Hs).
  exists last. split; [done|]. lia.
Qed.

(** C49, the recipient: a distribute or a swap pays the backstop that was current
    before the call and changes nobody else's balance of any token *)
Theorem C49_paid_to_current_backstop : forall w sg o out w',
  o = EDistribute \/ o = ESwap ->
  exec w (OExt sg o) = Ok (out, w') ->
  0 <= blnd_created w w' /\
  forall tok a, balance (tokens w') tok a = balance (tokens w) tok a +
    (if bool_decide (tok = em_blnd (emitter w) /\ a = em_backstop (emitter w)) then blnd_created w w' else 0).
Proof.
  intros w sg o out w' Ho H. unfold blnd_created, tokens, emitter. simpl in H. mon1 H. mon H. simpl.
  destruct Ho as [-> | ->]; unfold x_exec, ret_z, ret_unit in E; mon E.
  - unfold em_distribute in E0. mon E0.
    apply em_execute_distribute_spec in E0 as (l & _ & Hle & -> & _ & Ht & Hb).
    rewrite Ht, Z.eqb_refl. simpl in *. split; [vals; lia|].
    intros tok a. rewrite Hb. repeat case_bool_decide; destruct_and?; subst; tauto || lia.
  - unfold em_swap_backstop in E0. mon E0.
    apply em_execute_distribute_spec in E1 as (l & _ & Hle & -> & _ & Ht & Hb). simpl in *.
    rewrite Ht, Z.eqb_refl. split; [vals; lia|].
    intros tok a. rewrite Hb. repeat case_bool_decide; destruct_and?; subst; tauto || lia.
Qed.

(** ** C50: swaps are time-locked and need a larger backstop *)

(** [b] holds strictly more of the emitter's backstop token than the current backstop *)
Definition holds_more (w : World) (b : Addr) : Prop :=
  balance (tokens w) (em_token (emitter w)) (em_backstop (emitter w))
  < balance (tokens w) (em_token (emitter w)) b.

Definition is_cancel_or_swap (o : Op) : Prop :=
  match o with OExt _ ECancelSwap | OExt _ ESwap => True | _ => False end.

(** in the history [l] from [w0] ending in [w], a swap to ([b], [t]) was queued at
    time [tq] and has been neither cancelled nor executed since *)
Definition queued_at (w0 : World) (l : list Op) (b t tq : Z) : Prop :=
  exists l1 sg l2, l = l1 ++ OExt sg (EQueueSwap b t) :: l2 /\
    let wq := run w0 l1 in
    succeeds wq (OExt sg (EQueueSwap b t)) /\ w_now wq = tq /\ holds_more wq b /\
    em_backstop (emitter wq) = em_backstop (emitter (run w0 l)) /\
    em_token (emitter wq) = em_token (emitter (run w0 l)) /\
    forall l3 o l4, l2 = l3 ++ o :: l4 -> is_cancel_or_swap o ->
      ~ succeeds (run w0 (l1 ++ OExt sg (EQueueSwap b t) :: l3)) o.

Lemma queued_at_snoc w0 l b t tq o :
  queued_at w0 l b t tq ->
  em_backstop (emitter (run w0 (l ++ [o]))) = em_backstop (emitter (run w0 l)) ->
  em_token (emitter (run w0 (l ++ [o]))) = em_token (emitter (run w0 l)) ->
  (is_cancel_or_swap o -> ~ succeeds (run w0 l) o) ->
  queued_at w0 (l ++ [o]) b t tq.
Proof.
  intros (l1 & sg & l2 & Hl & Hq) Hb Ht Ho. exists l1, sg, (l2 ++ [o]).
  split; [subst; by rewrite <- app_assoc|]. cbv zeta in *. rewrite Hb, Ht.
  destruct Hq as (? & ? & ? & ? & ? & Hq). repeat split; auto.
  intros l3 o' l4 Heq Ho'.
  destruct l4 as [|o4 l4] using rev_ind.
  - apply app_inj_tail in Heq as [-> ->]. rewrite <- Hl. auto.
  - clear IHl4. rewrite app_comm_cons, app_assoc in Heq. apply app_inj_tail in Heq as [-> ->]. eauto.
Qed.

Lemma swap_queued w0 l s :
  initial w0 -> em_swap (emitter (run w0 l)) = Some s ->
  em_init (emitter (run w0 l)) = true /\ exists tq, sw_unlock s = tq + 31 * 86400 /\ queued_at w0 l (sw_backstop s) (sw_token s) tq.
Proof.
  intros H0. revert s. induction l as [|o l IH] using rev_ind.
  { intros s. destruct H0 as (? & ? & ? & ? & ? & -> & _). simpl. discriminate. }
  intros s Hs.
  assert (emitter (run w0 (l ++ [o])) = emitter (run w0 l) -> (is_cancel_or_swap o -> ~ succeeds (run w0 l) o) ->
    em_init (emitter (run w0 (l ++ [o]))) = true /\ exists tq, sw_unlock s = tq + 31 * 86400 /\
    queued_at w0 (l ++ [o]) (sw_backstop s) (sw_token s) tq) as Htriv.
  { intros He Ho. rewrite He in *. destruct (IH s Hs) as (? & tq & ? & ?). split; [done|]. exists tq. split; [done|].
    apply queued_at_snoc; auto; by rewrite He. }
  rewrite run_snoc in Hs, Htriv |- *. unfold step in Hs, Htriv |- *.
  destruct (exec (run w0 l) o) as [[out w']|e] eqn:E.
  2:{ apply Htriv; [done|]. intros _ (? & ? & ?). congruence. }
  pose proof (exec_em _ _ _ _ E) as Hem.
  destruct o as [sg o|sg a o|sg ad sa orc ra mp|a|dt ds|orc|n|a t u|a r|]; try (by apply Htriv).
  set (w := run w0 l) in *.
  assert (forall b t, o <> EQueueSwap b t -> em_swap (emitter w') = em_swap (emitter w) ->
    em_backstop (emitter w') = em_backstop (emitter w) -> em_token (emitter w') = em_token (emitter w) ->
    (em_init (emitter w) = true -> em_init (emitter w') = true) ->
    ~ is_cancel_or_swap (OExt sg o) ->
    em_init (emitter w') = true /\ exists tq, sw_unlock s = tq + 31 * 86400 /\ queued_at w0 (l ++ [OExt sg o]) (sw_backstop s) (sw_token s) tq) as Hkeep.
  { intros b t _ H1 H2 H3 Hi H4. rewrite H1 in Hs. destruct (IH s Hs) as (? & tq & ? & ?).
    split; [auto|]. exists tq. split; [done|].
    apply queued_at_snoc; auto; rewrite run_snoc; unfold step; fold w; rewrite E; auto. }
  destruct o; try (by apply Htriv); unfold exec in E; mon1 E; mon E; unfold x_exec, ret_unit, ret_z in E0; mon E0.
  - (* init *) exfalso. unfold em_initialize in E. mon E. unfold emitter in Hs. simpl in Hs.
    destruct (IH s Hs) as [Hi _]. unfold emitter in Hi. by rewrite Hi in G0.
  - (* distribute *) unfold em_distribute in E. mon E.
    apply em_execute_distribute_spec in E as (? & _ & _ & _ & Hx & _).
    apply (Hkeep 0 0); unfold emitter; simpl; rewrite ?Hx; auto; discriminate.
  - (* queue *) pose proof E as E'. unfold em_queue_swap in E. mon E. unfold emitter in Hs |- *. simpl in Hs |- *.
    injection Hs as <-. apply u64_ok in E0 as [-> _]. simpl. split; [done|]. exists (w_now w). split; [lia|].
    exists l, sg, []. split; [done|]. cbv zeta. rewrite run_snoc. unfold step. fold w.
    assert (exec w (OExt sg (EQueueSwap backstop token)) =
      Ok (OutUnit, w <| w_ext := set_em (w_ext w) (fun s => s <| em_swap := Some (mkSwap backstop token (w_now w + 2678400)) |>) |>)) as Hx.
    { unfold exec. rewrite G. unfold x_exec, ret_unit. rewrite E'. done. }
    rewrite Hx. split; [eexists _, _; done|]. split; [done|].
    split; [unfold holds_more, tokens, emitter; unfold em_is_larger in G2; lia|].
    split; [done|]. split; [done|]. intros l3 o l4 Hl. by destruct l3.
  - (* cancel *) exfalso. unfold em_cancel_swap in E. mon E. discriminate.
  - (* swap *) exfalso. unfold em_swap_backstop in E. mon E. discriminate.
  - (* drop *) unfold em_drop in E. mon E. mints_as Hx.
    apply (Hkeep 0 0); unfold emitter; simpl; rewrite ?Hx; auto; discriminate.
  - (* backstop drop *) unfold b_drop, em_drop in E. mon E. mints_as Hx.
    apply (Hkeep 0 0); unfold emitter; simpl; rewrite ?Hx; auto; discriminate.
Qed.

(** C50.  In any history, the backstop of an initialized emitter changes only in a
    swap transaction, to an address whose swap was queued at least 31 days earlier,
    not cancelled since, and which held strictly more backstop tokens than the
    (same) current backstop both then and now. *)
Theorem C50_swap_timelocked : forall w0 l o out w',
  initial w0 -> let w := run w0 l in
  exec w o = Ok (out, w') -> em_init (emitter w) = true ->
  (em_backstop (emitter w') <> em_backstop (emitter w) \/ em_token (emitter w') <> em_token (emitter w)) ->
  (exists sg, o = OExt sg ESwap) /\
  holds_more w (em_backstop (emitter w')) /\
  exists tq, tq + 31 * 86400 <= w_now w /\
    queued_at w0 l (em_backstop (emitter w')) (em_token (emitter w')) tq.
Proof.
  intros w0 l o out w' H0 w H Hi Hne. pose proof (exec_em _ _ _ _ H) as Hem.
  assert (em_backstop (emitter w') = em_backstop (emitter w) -> em_token (emitter w') = em_token (emitter w) -> False)
    as Hno by tauto.
  destruct o as [sg o|sg a o|sg ad sa orc ra mp|a|dt ds|orc|n|a t u|a r|]; try (exfalso; rewrite Hem in Hno; by apply Hno).
  unfold exec in H. mon1 H.
  destruct o; try (exfalso; rewrite Hem in Hno; by apply Hno); mon H;
    unfold x_exec, ret_unit, ret_z in E; mon E.
  - exfalso. unfold em_initialize in E0. mon E0. unfold emitter in Hi. by rewrite Hi in G0.
  - exfalso. unfold em_distribute in E0. mon E0.
    apply em_execute_distribute_spec in E0 as (? & _ & _ & _ & Hx & _).
    apply Hno; unfold emitter; simpl; by rewrite Hx.
  - exfalso. unfold em_queue_swap in E0. mon E0. by apply Hno.
  - exfalso. unfold em_cancel_swap in E0. mon E0. by apply Hno.
  - unfold em_swap_backstop in E0. mon E0.
    apply em_execute_distribute_spec in E1 as (? & _ & _ & _ & Hx & _).
    split; [by eexists|].
    split; [unfold holds_more, tokens, emitter; unfold em_is_larger in G1; simpl; lia|].
    destruct (em_swap (x_em (w_ext w))) as [s|] eqn:Es; [|discriminate]. injection E as ->.
    destruct (swap_queued w0 l sw H0 Es) as (_ & tq & Hu & Hq).
    exists tq. split; [|exact Hq]. simpl in G0. lia.
  - exfalso. unfold em_drop in E0. mon E0. mints_as Hx.
    apply Hno; unfold emitter; simpl; by rewrite Hx.
  - exfalso. unfold b_drop, em_drop in E0. mon E0. mints_as Hx.
    apply Hno; unfold emitter; simpl; by rewrite Hx.
Qed.

(** C50, cancelling: a cancellation succeeds only if the queued address does not
    hold more any more; afterwards no swap is possible until one is queued again *)
Theorem C50_cancel_only_if_smaller : forall w sg out w',
  exec w (OExt sg ECancelSwap) = Ok (out, w') ->
  (exists s, em_swap (emitter w) = Some s /\ ~ holds_more w (sw_backstop s)) /\
  forall sg', ~ succeeds w' (OExt sg' ESwap).
Proof.
  intros w sg out w' H. simpl in H. mon H. unfold ret_unit in E. mon E. unfold em_cancel_swap in E0. mon E0.
  unfold emitter, holds_more, tokens, emitter, em_is_larger in *. split.
  - destruct (em_swap (x_em (w_ext w))) as [s|]; [|discriminate]. injection E as ->. exists sw. split; [done|]. lia.
  - intros sg' (o & w2 & H). simpl in H. mon H.
Qed.

(** ** C51: the drop *)
Definition is_drop (o : Op) : Prop := match o with OExt _ (EDrop _) | OExt _ BDrop => True | _ => False end.
#[export] Instance is_drop_dec o : Decision (is_drop o).
Proof. destruct o as [? []| | | | | | | | |]; simpl; apply _. Defined.

Lemma drop_spec w o out w' :
  is_drop o -> exec w o = Ok (out, w') ->
  em_backstop (emitter w) ∉ em_dropped (emitter w) /\
  em_backstop (emitter w) ∈ em_dropped (emitter w') /\
  0 <= blnd_created w w' <= 50000000 * SCALAR_7 /\
  match o with OExt sg (EDrop _) => em_backstop (emitter w) ∈ sg
             | OExt sg BDrop => em_backstop (emitter w) = bs_addr \/ em_backstop (emitter w) ∈ sg
             | _ => False end.
Proof.
  assert (forall c x l x', em_drop c x l = Ok x' ->
    em_backstop (x_em x) ∉ em_dropped (x_em x) /\ em_backstop (x_em x) ∈ em_dropped (x_em x') /\
    0 <= total_of (x_tok x') (em_blnd (x_em x)) - total_of (x_tok x) (em_blnd (x_em x)) <= 50000000 * SCALAR_7 /\
    c_auth c (em_backstop (x_em x)) = true) as Hd.
  { intros c x l x' H. unfold em_drop in H. mon H. apply need_auth_ok in E.
    apply em_mints_spec in E1 as (Hnn & Hem & Ht). simpl. rewrite Hem. apply sum_loop_ok in E0 as ->.
    rewrite Ht, Z.eqb_refl.
    assert (0 <= sumz snd l).
    { apply sumz_nonneg. intros e He. rewrite Forall_forall in Hnn. by apply Hnn. }
    split; [by apply negb_true_iff, bool_decide_eq_false in G0|]. split; [set_solver|]. split; [|done].
    simpl in *. lia. }
  assert (forall a sg, mem_addr a sg = true -> a ∈ sg) as Hm.
  { intros a sg Ha. unfold mem_addr in Ha. apply existsb_exists in Ha as (b & Hb & Hab).
    apply Z.eqb_eq in Hab as ->. by apply elem_of_list_In. }
  intros Ho H. destruct o as [sg o| | | | | | | | |]; try done. unfold exec in H. mon1 H. destruct o; try done; mon H;
    unfold x_exec, ret_unit in E; mon E; unfold emitter, blnd_created, tokens, emitter in *; simpl.
  - apply Hd in E0 as (? & ? & ? & Ha). repeat split; try done; try lia. simpl in Ha. auto.
  - unfold b_drop in E0. mon E0. apply Hd in E0 as (? & ? & ? & Ha). repeat split; try done; try lia.
    simpl in Ha. apply orb_prop in Ha as [Ha|Ha]; [right; auto|left; lia].
Qed.

Lemma dropped_mono w o out w' :
  exec w o = Ok (out, w') -> em_dropped (emitter w) ⊆ em_dropped (emitter w').
Proof.
  intros H. pose proof (exec_em _ _ _ _ H) as Hem.
  destruct o as [sg o| | | | | | | | |]; try (by rewrite Hem).
  unfold exec in H. mon1 H. destruct o; try (by rewrite Hem); mon H; unfold x_exec, ret_unit, ret_z in E; mon E;
    unfold emitter; simpl.
  - unfold em_initialize in E0. by mon E0.
  - unfold em_distribute in E0. mon E0. apply em_execute_distribute_spec in E0 as (? & _ & _ & _ & Hx & _). by rewrite Hx.
  - unfold em_queue_swap in E0. by mon E0.
  - unfold em_cancel_swap in E0. by mon E0.
  - unfold em_swap_backstop in E0. mon E0. apply em_execute_distribute_spec in E1 as (? & _ & _ & _ & Hx & _). simpl. by rewrite Hx.
  - unfold em_drop in E0. mon E0. mints_as Hx. simpl. rewrite Hx. set_solver.
  - unfold b_drop, em_drop in E0. mon E0. mints_as Hx. simpl. rewrite Hx. set_solver.
Qed.

(** C51: once a drop for a backstop has succeeded, every later drop while the same
    backstop is current fails *)
Theorem C51_drop_at_most_once : forall w o1 out w1 l o2,
  is_drop o1 -> exec w o1 = Ok (out, w1) -> is_drop o2 ->
  em_backstop (emitter (run w1 l)) = em_backstop (emitter w) ->
  ~ succeeds (run w1 l) o2.
Proof.
  intros w o1 out w1 l o2 H1 E1 H2 Hb (out2 & w2 & E2).
  apply drop_spec in E1 as (_ & Hin & _); [|done]. apply drop_spec in E2 as (Hn & _); [|done].
  rewrite Hb in Hn. apply Hn.
  apply (run_inv (fun w' => em_backstop (emitter w) ∈ em_dropped (emitter w'))); [done|].
  intros w3 o3 out3 w4 Hw3 E3. apply dropped_mono in E3. set_solver.
Qed.

(** C51: a drop needs the signature of the current backstop (the backstop contract
    of the model signs its own call), and creates at most 50 million BLND *)
Theorem C51_drop_authorized_and_capped : forall w o out w',
  is_drop o -> exec w o = Ok (out, w') ->
  0 <= blnd_created w w' <= 50000000 * 10000000 /\
  match o with OExt sg (EDrop _) => em_backstop (emitter w) ∈ sg
             | OExt sg BDrop => em_backstop (emitter w) = bs_addr \/ em_backstop (emitter w) ∈ sg
             | _ => False end.
Proof. intros w o out w' Ho E. apply drop_spec in E as (_ & _ & ? & ?); auto. Qed.

(** C51: over any history, the BLND created by drops for one backstop address is
    at most 50 million *)
Definition dropped_for (b : Addr) (w : World) (o : Op) (w' : World) : Z :=
  if bool_decide (is_drop o /\ em_backstop (emitter w) = b) then blnd_created w w' else 0.
Theorem C51_total_drop_capped : forall w l b,
  0 <= sumh (dropped_for b) w l <= 50000000 * 10000000.
Proof.
  intros w l b.
  cut (0 <= sumh (dropped_for b) w l <= if bool_decide (b ∈ em_dropped (emitter w)) then 0 else 50000000 * 10000000).
  { case_bool_decide; lia. }
  revert w. induction l as [|o l IH]; intros w; simpl; [case_bool_decide; lia|].
  unfold step. destruct (exec w o) as [[out w']|] eqn:E.
  - pose proof (dropped_mono _ _ _ _ E) as Hm. specialize (IH w').
    destruct (decide (is_drop o /\ em_backstop (emitter w) = b)) as [Hd|Hd].
    + assert (dropped_for b w o w' = blnd_created w w') as ->
        by (unfold dropped_for; by rewrite bool_decide_eq_true_2).
      destruct Hd as [Hd <-]. apply drop_spec in E as (H1 & H2 & H3 & _); [|done].
      rewrite bool_decide_eq_true_2 in IH by done. rewrite bool_decide_eq_false_2 by done. vals. lia.
    + assert (dropped_for b w o w' = 0) as -> by (unfold dropped_for; by rewrite bool_decide_eq_false_2).
      repeat case_bool_decide; try lia. set_solver.
  - specialize (IH w).
    assert (dropped_for b w o w = 0) as Hz by (clear IH; unfold dropped_for, blnd_created; rewrite Z.sub_diag; by case_match).
    rewrite Hz. exact IH.
Qed.
