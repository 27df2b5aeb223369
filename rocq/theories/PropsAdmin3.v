(** * Initialization: C61 *)
From Verif Require Import Base Types Token Emitter Factory Backstop PoolReserve PoolUser PoolHealth
  PoolAuction PoolSubmit PoolEmis PoolAdmin World Facts XMove Spec FrameFacts PoolFrame PoolCfg PropsEmitter PropsAdmin BackMoves PropsBackstop PropsBackstop5
  PoolInv PoolReach PoolTx PropsPool1 PropsAdmin2.

(** ** Specification: what initialization fixes *)
Record Wiring := mkWiring { wi_emitter : option Addr; wi_factory : option (Addr * Addr); wi_backstop : option (Addr * Addr * Addr * Addr * Addr) }.
(** BLND token of the emitter; backstop and BLND token of the factory; backstop (LP) token, BLND,
    USDC, pool factory and emitter of the backstop; None before initialization *)
Definition wiring (x : Ext) : Wiring := mkWiring
  (if em_init (x_em x) then Some (em_blnd (x_em x)) else None)
  (if fa_init (x_fac x) then Some (fa_backstop (x_fac x), fa_blnd (x_fac x)) else None)
  (if bs_init (x_bs x) then Some (bs_token (x_bs x), bs_blnd (x_bs x), bs_usdc (x_bs x), bs_factory (x_bs x), bs_emitter (x_bs x)) else None).

(** ** Lemmas *)
Lemma wir_emis x x' : emis_frame x x' -> wiring x' = wiring x.
Proof. by intros (e & u & ->). Qed.
Lemma wir_mint x to n x' : em_mint x to n = Ok x' -> wiring x' = wiring x.
Proof. unfold em_mint. intros H. by mon H. Qed.
Lemma wir_mints l x x' : foldM (fun x p => em_mint x p.1 p.2) x l = Ok x' -> wiring x' = wiring x.
Proof. apply (foldM_rel (fun x x' => wiring x' = wiring x)); [done|congruence|]. intros s e s' _ Hs. by apply wir_mint in Hs. Qed.
Lemma wir_distr c x b n x' : em_execute_distribute c x b = Ok (n, x') -> wiring x' = wiring x.
Proof. unfold em_execute_distribute. intros H. mon H. match goal with E : em_mint _ _ _ = Ok _ |- _ => by apply wir_mint in E end. Qed.
Lemma wir_drop c x l x' : em_drop c x l = Ok x' -> wiring x' = wiring x.
Proof. unfold em_drop. intros H. mon H. match goal with E : foldM _ x _ = Ok _ |- _ => apply wir_mints in E end. by rewrite <- E1. Qed.
Lemma wir_draw c x p n t x' : b_draw c x p n t = Ok x' -> wiring x' = wiring x.
Proof. unfold b_draw. intros H. by mon H. Qed.
Lemma wir_donate c x p n t x' : b_donate c x p n t = Ok x' -> wiring x' = wiring x.
Proof. unfold b_donate. intros H. by mon H. Qed.
Lemma wir_gulp_pool c x p n x' : b_gulp_pool c x p = Ok (n, x') -> wiring x' = wiring x.
Proof. unfold b_gulp_pool. intros H. by mon H. Qed.
Lemma wir_set_ecfg c x p pb n x' : b_set_ecfg c x p pb n = Ok x' -> wiring x' = wiring x.
Proof.
  unfold b_set_ecfg. intros H. mon H. change (wiring e = wiring x).
  destruct (bs_ecfg _ !! _).
  - mon E. apply emis_frame_data, wir_emis in E2. destruct (_ <? _); mon E; destruct (negb _); done.
  - by mon E.
Qed.
Lemma wir_gulp c x n x' : b_gulp c x = Ok (n, x') -> wiring x' = wiring x.
Proof.
  unfold b_gulp. intros H. mon H.
  match goal with E : foldM (gulp_one _ _ _ _) _ _ = Ok _ |- _ => eapply (foldM_rel (fun x x' => wiring x' = wiring x)) in E; [exact E|done|congruence|] end.
  intros s a s' _ Hs. unfold gulp_one in Hs. mon Hs. match goal with E : b_set_ecfg _ _ _ _ _ = Ok _ |- _ => apply wir_set_ecfg in E; exact E end.
Qed.
Lemma wir_claim c x f ps t n m x' : b_claim c x f ps t n = Ok (m, x') -> wiring x' = wiring x.
Proof.
  unfold b_claim. intros H. mon1 H. mon1 H. apply bind_ok in H as ([[cl cs] y] & E1 & H).
  assert (wiring y = wiring x) as Hy.
  { change (wiring (snd (cl, cs, y)) = wiring (snd (0, ∅ : gmap Addr Z, x))). revert E1. apply (foldM_rel (fun s s' => wiring (snd s') = wiring (snd s))); [done|congruence|].
    intros [[a b] s] p [[a' b'] s'] _ Hs. unfold claim_one in Hs. mon Hs. match goal with E : b_emissions _ _ _ _ _ _ _ = Ok _ |- _ => apply emis_frame_b, wir_emis in E; exact E end. }
  destruct (0 <? cl); [|by injection H as <- <-]. mon H.
  match goal with E : foldM (claim_dep _ _ _ _) _ _ = Ok _ |- _ => eapply (foldM_rel (fun x x' => wiring x' = wiring x)) in E; [rewrite E, <- Hy; done|done|congruence|] end.
  intros s a s' _ Hs. unfold claim_dep in Hs. by mon Hs.
Qed.
Lemma wir_xmove c self x x' : xmove c self x x' -> wiring x' = wiring x.
Proof.
  intros []; try done; [by eapply wir_draw|by eapply wir_donate|by eapply wir_gulp_pool].
Qed.
Lemma wir_xmoves c self x x' : xmoves c self x x' -> wiring x' = wiring x.
Proof. induction 1 as [|x y z H _ IH]; [done|]. rewrite IH. by eapply wir_xmove. Qed.

Definition is_init (o : Op) : Prop :=
  match o with OExt _ (EInit _ _ _) | OExt _ (FInit _ _) | OExt _ (BInit _ _ _ _ _ _) => True | _ => False end.
Lemma wiring_step w o out w' : exec w o = Ok (out, w') -> ~ is_init o -> wiring (w_ext w') = wiring (w_ext w).
Proof.
  intros H Hn. destruct o as [sg o|sg a o|sg ad sa orc ra mp|b|dt ds|orc|n|b t u|b r|]; simpl in H.
  - apply assert_ok in H as [_ H]. apply bind_ok in H as ([o' x] & H & [= <- <-]). simpl.
    destruct o; simpl in H, Hn; try (by destruct (Hn I)); unfold ret_unit, ret_z in H; mon H;
      try (by match goal with
        | E : em_distribute _ _ = Ok _ |- _ => unfold em_distribute in E; mon E; by eapply wir_distr
        | E : em_queue_swap _ _ _ _ = Ok _ |- _ => unfold em_queue_swap in E; by mon E
        | E : em_cancel_swap _ _ = Ok _ |- _ => unfold em_cancel_swap in E; by mon E
        | E : em_drop _ _ _ = Ok _ |- _ => by eapply wir_drop
        | E : b_queue _ _ _ _ _ = Ok _ |- _ => unfold b_queue in E; mon E; match goal with E : b_emissions _ _ _ _ _ _ _ = Ok _ |- _ => apply emis_frame_b, wir_emis in E; exact E end
        | E : b_deposit _ _ _ _ _ = Ok _ |- _ => unfold b_deposit in E; mon E; match goal with E : b_emissions _ _ _ _ _ _ _ = Ok _ |- _ => apply emis_frame_b, wir_emis in E; exact E end
        | E : b_dequeue _ _ _ _ _ = Ok _ |- _ => unfold b_dequeue in E; mon E; match goal with E : b_emissions _ _ _ _ _ _ _ = Ok _ |- _ => apply emis_frame_b, wir_emis in E; exact E end
        | E : b_withdraw _ _ _ _ _ = Ok _ |- _ => unfold b_withdraw in E; by mon E
        | E : b_draw _ _ _ _ _ = Ok _ |- _ => by eapply wir_draw
        | E : b_donate _ _ _ _ _ = Ok _ |- _ => by eapply wir_donate
        | E : b_update_tkn_val _ _ = Ok _ |- _ => unfold b_update_tkn_val in E; by mon E
        | E : b_drop _ _ = Ok _ |- _ => unfold b_drop in E; mon E; by eapply wir_drop
        | E : b_add_reward _ _ _ _ = Ok _ |- _ => unfold b_add_reward in E; mon E; destruct (_ <? _); by mon E
        | E : b_gulp _ _ = Ok _ |- _ => by eapply wir_gulp
        | E : b_gulp_pool _ _ _ = Ok _ |- _ => by eapply wir_gulp_pool
        | E : b_claim _ _ _ _ _ _ = Ok _ |- _ => by eapply wir_claim
        end).
    all: try reflexivity.
    unfold em_swap_backstop in E. mon E. match goal with E : em_execute_distribute _ _ _ = Ok _ |- _ => apply wir_distr in E; exact E end.
  - apply assert_ok in H as [_ H]. apply bind_ok in H as (p & _ & H). apply bind_ok in H as ([o' px] & H & [= <- <-]). simpl.
    apply p_exec_xmoves in H. simpl in H. by eapply wir_xmoves.
  - mon H. by destruct (w_pools w !! _); mon H.
  - mon H. by destruct (w_pools w !! _); mon H.
  - by mon H.
  - by mon H.
  - by mon H.
  - by mon H.
  - by mon H.
  - by mon H.
Qed.

(** ** C61 *)
(** each contract can be initialized as long as it has not been, by anybody, and records its
    arguments; initializing one of them changes nothing else *)
Theorem C61_emitter_initialize : forall w sg blnd backstop token out w', accounts sg ->
  exec w (OExt sg (EInit blnd backstop token)) = Ok (out, w') <->
  em_init (emitter w) = false /\ out = OutUnit /\
  w' = w <| w_ext := w_ext w <| x_em := emitter w <| em_blnd := blnd |> <| em_backstop := backstop |> <| em_token := token |>
          <| em_last := <[backstop := w_now w]> (em_last (emitter w)) |> <| em_init := true |> |> |>.
Proof.
  intros w sg blnd bk tok out w' Hs. rewrite (oext_unit_iff _ _ _ _ _ (em_initialize (ctx w sg) (w_ext w) blnd bk tok)) by done.
  unfold em_initialize, emitter. split.
  - intros (-> & x & H & ->). apply assert_iff in H as [Hi [= <-]]. by rewrite negb_true_iff in Hi.
  - intros (Hi & -> & ->). split; [done|]. eexists. split; [|reflexivity]. by rewrite Hi.
Qed.
Theorem C61_factory_initialize : forall w sg backstop blnd out w', accounts sg ->
  exec w (OExt sg (FInit backstop blnd)) = Ok (out, w') <->
  fa_init (x_fac (w_ext w)) = false /\ out = OutUnit /\
  w' = w <| w_ext := w_ext w <| x_fac := x_fac (w_ext w) <| fa_backstop := backstop |> <| fa_blnd := blnd |> <| fa_init := true |> |> |>.
Proof.
  intros w sg bk blnd out w' Hs. rewrite (oext_unit_iff _ _ _ _ _ (fa_initialize (w_ext w) bk blnd)) by done.
  unfold fa_initialize. split.
  - intros (-> & x & H & ->). apply assert_iff in H as [Hi [= <-]]. by rewrite negb_true_iff in Hi.
  - intros (Hi & -> & ->). split; [done|]. eexists. split; [|reflexivity]. by rewrite Hi.
Qed.
(** the backstop takes the start of its emissions from the emitter, which must know it *)
Theorem C61_backstop_initialize : forall w sg token em usdc blnd factory drop out w', accounts sg ->
  (forall e, e ∈ drop -> i128_min <= snd e <= i128_max) ->
  exec w (OExt sg (BInit token em usdc blnd factory drop)) = Ok (out, w') <->
  bs_init (x_bs (w_ext w)) = false /\ em = em_addr /\ exists last, em_last (emitter w) !! bs_addr = Some last /\ out = OutUnit /\
  w' = w <| w_ext := w_ext w <| x_bs := x_bs (w_ext w) <| bs_token := token |> <| bs_blnd := blnd |> <| bs_usdc := usdc |>
        <| bs_factory := factory |> <| bs_drop := Some drop |> <| bs_emitter := em |> <| bs_last := last |> <| bs_init := true |> |> |>.
Proof.
  intros w sg token em usdc blnd fac drop out w' Hs Ht.
  rewrite (oext_unit_iff _ _ _ _ _ (b_initialize (ctx w sg) (w_ext w) token em usdc blnd fac drop)); [|done| |done].
  2: { simpl. apply forallb_forall. intros e He. apply elem_of_list_In in He. apply in_i128_iff. by apply Ht. }
  unfold b_initialize, em_get_last, emitter, set_bs. split.
  - intros (-> & x & H & ->). apply assert_iff in H as [Hi H]. apply assert_iff in H as [He H]. apply bind_iff in H as (last & Hl & [= <-]).
    rewrite negb_true_iff in Hi. apply Z.eqb_eq in He. destruct (em_last _ !! _) as [l0|]; [|discriminate]. injection Hl as <-. eauto 10.
  - intros (Hi & -> & last & Hl & -> & ->). split; [done|]. eexists. split; [|reflexivity]. rewrite Hi. simpl. by rewrite Hl.
Qed.
(** a pool installed by hand; the factory's deploy does the same in one transaction (C62) *)
Theorem C61_pool_initialize : forall w sg a p admin oracle rate mp backstop blnd out w', accounts sg -> w_pools w !! a = Some p ->
  0 <= rate <= u32_max -> 0 <= mp <= u32_max ->
  exec w (OPool sg a (PInit admin oracle rate mp backstop blnd)) = Ok (out, w') <->
  ps_init p = false /\ admin ∈ sg /\ rate < 10000000 /\ 2 <= mp /\ out = OutUnit /\
  w' = with_pool w a (p <| ps_admin := admin |> <| ps_backstop := backstop |> <| ps_config := mkPoolConfig oracle rate 6 mp |> <| ps_blnd := blnd |> <| ps_init := true |>).
Proof.
  intros w sg a p admin oracle rate mp bk blnd out w' Hs Hp H1 H2. unfold exec.
  rewrite assert_iff, (proj1 (accounts_ok sg) Hs), Hp. simpl ty_pop. rewrite !(proj2 (in_u32_iff _)) by done.
  simpl. unfold p_initialize. split.
  - intros [_ H]. apply bind_iff in H as ([o px] & H & [= <- <-]). unfold on_pool in H. apply bind_iff in H as (p1 & H & [= <- <-]).
    apply bind_iff in H as (? & Ha & H). apply auth_iff in Ha. apply assert_iff in H as [Hi H]. apply assert_iff in H as [Hr H]. apply assert_iff in H as [Hm [= <-]].
    rewrite negb_true_iff in Hi, Hr, Hm. apply Z.leb_gt in Hr. apply Z.ltb_ge in Hm. vals. repeat (split; [done|]). by destruct w.
  - intros (Hi & Ha & Hr & Hm & -> & ->). split; [done|]. apply mem_addr_in in Ha. unfold need_auth. simpl. rewrite Ha, Hi. simpl.
    rewrite (proj2 (Z.leb_gt _ _)) by (vals; lia). simpl. rewrite (proj2 (Z.ltb_ge _ _)) by lia. simpl. by destruct w.
Qed.
(** once initialized, no contract can be initialized again and its addresses never change,
    whatever happens *)
Theorem C61_initialized_once : forall w l, let x := w_ext w in let x' := w_ext (run w l) in
  (em_init (x_em x) = true -> em_init (x_em x') = true /\ em_blnd (x_em x') = em_blnd (x_em x)) /\
  (fa_init (x_fac x) = true -> fa_init (x_fac x') = true /\ fa_backstop (x_fac x') = fa_backstop (x_fac x) /\ fa_blnd (x_fac x') = fa_blnd (x_fac x)) /\
  (bs_init (x_bs x) = true -> bs_init (x_bs x') = true /\ bs_token (x_bs x') = bs_token (x_bs x) /\ bs_blnd (x_bs x') = bs_blnd (x_bs x) /\
     bs_usdc (x_bs x') = bs_usdc (x_bs x) /\ bs_factory (x_bs x') = bs_factory (x_bs x) /\ bs_emitter (x_bs x') = bs_emitter (x_bs x)) /\
  forall a, ps_init (pool w a) = true -> ps_init (pool (run w l) a) = true /\ ps_backstop (pool (run w l) a) = ps_backstop (pool w a) /\
     ps_blnd (pool (run w l) a) = ps_blnd (pool w a) /\ pc_oracle (ps_config (pool (run w l) a)) = pc_oracle (ps_config (pool w a)).
Proof.
  intros w l x x'. 
  assert (forall w' o out w2, exec w' o = Ok (out, w2) ->
    (em_init (x_em (w_ext w')) = true -> em_init (x_em (w_ext w2)) = true /\ em_blnd (x_em (w_ext w2)) = em_blnd (x_em (w_ext w'))) /\
    (fa_init (x_fac (w_ext w')) = true -> fa_init (x_fac (w_ext w2)) = true /\ fa_backstop (x_fac (w_ext w2)) = fa_backstop (x_fac (w_ext w')) /\ fa_blnd (x_fac (w_ext w2)) = fa_blnd (x_fac (w_ext w'))) /\
    (bs_init (x_bs (w_ext w')) = true -> bs_init (x_bs (w_ext w2)) = true /\ bs_token (x_bs (w_ext w2)) = bs_token (x_bs (w_ext w')) /\ bs_blnd (x_bs (w_ext w2)) = bs_blnd (x_bs (w_ext w')) /\
       bs_usdc (x_bs (w_ext w2)) = bs_usdc (x_bs (w_ext w')) /\ bs_factory (x_bs (w_ext w2)) = bs_factory (x_bs (w_ext w')) /\ bs_emitter (x_bs (w_ext w2)) = bs_emitter (x_bs (w_ext w')))) as Hstep.
  { intros w1 o out w2 H. assert (is_init o \/ ~ is_init o) as [Hi|Hi] by (destruct o as [? []| | | | | | | | |]; simpl; tauto).
    - destruct o as [sg o| | | | | | | | |]; try done. destruct o; try done;
        simpl in H; apply assert_ok in H as [_ H]; apply bind_ok in H as ([o' y] & H & [= <- <-]); unfold ret_unit in H; mon H; simpl.
      + unfold em_initialize in E. mon E. rewrite negb_true_iff in G. simpl. split; [congruence|]. done.
      + unfold fa_initialize in E. mon E. rewrite negb_true_iff in G. simpl. split; [done|]. split; [congruence|done].
      + unfold b_initialize in E. mon E. rewrite negb_true_iff in G. simpl. split; [done|]. split; [done|congruence].
    - apply wiring_step in H; [|done]. unfold wiring in H. injection H as E1 E2 E3.
      split; [|split].
      + intros Hb. rewrite Hb in E1. destruct (em_init _); [|done]. by injection E1.
      + intros Hb. rewrite Hb in E2. destruct (fa_init _); [|done]. by injection E2.
      + intros Hb. rewrite Hb in E3. destruct (bs_init _); [|done]. injection E3. auto 10. }
  split; [|split; [|split]].
  - intros Hi. apply (run_inv (fun w' => em_init (x_em (w_ext w')) = true /\ em_blnd (x_em (w_ext w')) = em_blnd (x_em x))); [done|].
    intros w1 o out w2 [H1 H2] H. destruct (Hstep _ _ _ _ H) as (A & _ & _). destruct (A H1) as [? ?]. split; congruence.
  - intros Hi. apply (run_inv (fun w' => fa_init (x_fac (w_ext w')) = true /\ fa_backstop (x_fac (w_ext w')) = fa_backstop (x_fac x) /\ fa_blnd (x_fac (w_ext w')) = fa_blnd (x_fac x))); [done|].
    intros w1 o out w2 (H1 & H2 & H3) H. destruct (Hstep _ _ _ _ H) as (_ & A & _). destruct (A H1) as (? & ? & ?). repeat split; congruence.
  - intros Hi. apply (run_inv (fun w' => bs_init (x_bs (w_ext w')) = true /\ bs_token (x_bs (w_ext w')) = bs_token (x_bs x) /\ bs_blnd (x_bs (w_ext w')) = bs_blnd (x_bs x) /\
       bs_usdc (x_bs (w_ext w')) = bs_usdc (x_bs x) /\ bs_factory (x_bs (w_ext w')) = bs_factory (x_bs x) /\ bs_emitter (x_bs (w_ext w')) = bs_emitter (x_bs x))); [done|].
    intros w1 o out w2 (H1 & H2) H. destruct (Hstep _ _ _ _ H) as (_ & _ & A). destruct (A H1) as (? & ?). intuition congruence.
  - intros a Hi. apply (run_inv (fun w' => ps_init (pool w' a) = true /\ ps_backstop (pool w' a) = ps_backstop (pool w a) /\
       ps_blnd (pool w' a) = ps_blnd (pool w a) /\ pc_oracle (ps_config (pool w' a)) = pc_oracle (ps_config (pool w a)))); [done|].
    intros w1 o out w2 (H1 & H2 & H3 & H4) H. destruct (C32_admin_settings _ _ _ _ a H H1) as (_ & _ & _ & E1 & E2 & E3).
    split; [eapply init_step; [by eapply exec_pool|done]|]. repeat split; congruence.
Qed.
