(** * Frame facts: which parts of the world each call leaves alone *)
From Verif Require Import Base Types Token Emitter Factory Backstop PoolReserve PoolUser PoolHealth
  PoolAuction PoolSubmit PoolEmis PoolAdmin World Facts XMove Spec.

(** the emitter, the factory and the oracle are untouched *)
Definition same_ext (x x' : Ext) : Prop := x_em x' = x_em x /\ x_fac x' = x_fac x /\ x_orc x' = x_orc x.
Lemma same_refl x : same_ext x x. Proof. done. Qed.
Lemma same_trans x y z : same_ext x y -> same_ext y z -> same_ext x z.
Proof. intros (?&?&?) (?&?&?). split; [|split]; congruence. Qed.
#[export] Hint Resolve same_refl : core.

Lemma same_b_update_data c x pool pb cfg d x' :
  b_update_data c x pool pb cfg = Ok (d, x') -> same_ext x x'.
Proof. unfold b_update_data. intros H. mon H. destruct (_ || _); mon H; done. Qed.
Lemma same_b_update_user x pool u d ub cl n x' :
  b_update_user x pool u d ub cl = Ok (n, x') -> same_ext x x'.
Proof.
  unfold b_update_user, b_set_user. intros H.
  destruct (bs_uemis _ !! _); [destruct (_ || _)|]; [destruct (_ =? _)| |destruct (_ =? _)]; mon H; destruct cl; by simplify_eq.
Qed.
Lemma same_b_emissions c x pool pb u ub cl n x' :
  b_emissions c x pool pb u ub cl = Ok (n, x') -> same_ext x x'.
Proof.
  unfold b_emissions. intros H. destruct (bs_ecfg _ !! _); mon H; [|done].
  eapply same_trans; [by eapply same_b_update_data|by eapply same_b_update_user].
Qed.
Lemma same_b_deposit c x f p n m x' : b_deposit c x f p n = Ok (m, x') -> same_ext x x'.
Proof. unfold b_deposit. intros H. mon H. apply same_b_emissions in E2. done. Qed.
Lemma same_b_queue c x f p n m x' : b_queue c x f p n = Ok (m, x') -> same_ext x x'.
Proof. unfold b_queue. intros H. mon H. by apply same_b_emissions in E1. Qed.
Lemma same_b_dequeue c x f p n x' : b_dequeue c x f p n = Ok x' -> same_ext x x'.
Proof. unfold b_dequeue. intros H. mon H. by apply same_b_emissions in E1. Qed.
Lemma same_b_withdraw c x f p n m x' : b_withdraw c x f p n = Ok (m, x') -> same_ext x x'.
Proof. unfold b_withdraw. intros H. mon H. done. Qed.
Lemma same_b_draw c x p n t x' : b_draw c x p n t = Ok x' -> same_ext x x'.
Proof. unfold b_draw. intros H. mon H. done. Qed.
Lemma same_b_donate c x f p n x' : b_donate c x f p n = Ok x' -> same_ext x x'.
Proof. unfold b_donate. intros H. mon H. done. Qed.
Lemma same_b_set_ecfg c x p pb n x' : b_set_ecfg c x p pb n = Ok x' -> same_ext x x'.
Proof.
  unfold b_set_ecfg. intros H. mon H. eapply same_trans; [|done].
  destruct (bs_ecfg _ !! _); mon E; [|done]. apply same_b_update_data in E2.
  destruct (_ <? _); mon E; destruct (negb _); done.
Qed.
Lemma same_gulp_one c a b d x p x' : gulp_one c a b d x p = Ok x' -> same_ext x x'.
Proof. unfold gulp_one. intros H. mon H. by apply same_b_set_ecfg in E4. Qed.
Lemma same_b_gulp c x n x' : b_gulp c x = Ok (n, x') -> same_ext x x'.
Proof.
  unfold b_gulp. intros H. mon H.
  eapply (foldM_rel same_ext) in E6; [|done|by intros; eapply same_trans|by intros; eapply same_gulp_one].
  done.
Qed.
Lemma same_b_gulp_pool c x p n x' : b_gulp_pool c x p = Ok (n, x') -> same_ext x x'.
Proof. unfold b_gulp_pool. intros H. mon H. done. Qed.
Lemma same_b_claim c x f ps t lp n x' : b_claim c x f ps t lp = Ok (n, x') -> same_ext x x'.
Proof.
  unfold b_claim. intros H. mon H.
  eapply (foldM_rel (fun s s' => same_ext (snd s) (snd s'))) in E0;
    [|done|by intros; eapply same_trans|].
  2:{ intros [[n1 m1] x1] q [[n2 m2] x2] _ Hs. unfold claim_one in Hs. mon Hs. simpl.
      by apply same_b_emissions in E1. }
  simpl in E0. destruct (0 <? _); mon H; [|done].
  eapply (foldM_rel same_ext) in E3; [|done|by intros; eapply same_trans|].
  2:{ intros x1 q x2 _ Hs. unfold claim_dep in Hs. mon Hs. done. }
  eapply same_trans; [exact E0|]. eapply same_trans; [|exact E3]. done.
Qed.
Lemma same_b_add_reward c x a r x' : b_add_reward c x a r = Ok x' -> same_ext x x'.
Proof. unfold b_add_reward. intros H. mon H. destruct (_ <? _); mon H; done. Qed.

Lemma same_xmove c self x x' : xmove c self x x' -> same_ext x x'.
Proof.
  destruct 1; try done; [by eapply same_b_draw|by eapply same_b_donate|by eapply same_b_gulp_pool].
Qed.
Lemma same_xmoves c self x x' : xmoves c self x x' -> same_ext x x'.
Proof. induction 1; [done|]. eapply same_trans; [by eapply same_xmove|done]. Qed.
Lemma same_p_exec c self px o out px' : p_exec c self px o = Ok (out, px') -> same_ext (px_x px) (px_x px').
Proof. intros H. eapply same_xmoves. by eapply p_exec_xmoves. Qed.

(** calls that are not emitter calls keep the emitter *)
Lemma x_exec_em c x o out x' :
  x_exec c x o = Ok (out, x') ->
  match o with EInit _ _ _ | EDistribute | EQueueSwap _ _ | ECancelSwap | ESwap | EDrop _ | BDrop => True
  | _ => x_em x' = x_em x end.
Proof.
  destruct o; simpl; intros H; unfold ret_unit, ret_z in H; try exact I; mon H; try done.
  - unfold fa_initialize in E. mon E. done.
  - unfold b_initialize in E. mon E. done.
  - by apply same_b_deposit in E as [? _].
  - by apply same_b_queue in E as [? _].
  - by apply same_b_dequeue in E as [? _].
  - by apply same_b_withdraw in E as [? _].
  - by apply same_b_draw in E as [? _].
  - by apply same_b_donate in E as [? _].
  - unfold b_update_tkn_val in E. mon E. done.
  - by apply same_b_add_reward in E as [? _].
  - by apply same_b_gulp in E as [? _].
  - by apply same_b_gulp_pool in E as [? _].
  - by apply same_b_claim in E as [? _].
Qed.
