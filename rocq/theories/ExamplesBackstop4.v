(** * Concrete cases for C78 *)
From Verif Require Import Base Types Token Emitter Factory Backstop PoolReserve PoolUser PoolHealth
  PoolAuction PoolSubmit PoolEmis PoolAdmin World Facts XMove Spec PoolCfg BackMoves BackInv BackEmis PropsAdmin PropsBackstop PropsBackstop4 PropsBackstop5 PropsAdmin2 PropsBackstop6 PropsBackstop10 PropsBackstop12 Scenario.

(** alice deposits into the second pool too and earns at both for a day *)
Definition ops_two : list Op := ops_emit ++ [OExt [] (TMint LP alice 200000000000); OExt [alice] (BDeposit alice P2 200000000000); OTick 86400 17280].
Definition claim_two (ps : list Addr) : Op := OExt [alice] (BClaim alice ps alice 70000000).
Example ex_C78_history : all_ok sc0 (ops_two ++ [claim_two [P1; P2]]) = true /\ Forall (fun o => own_claim o = true) ops_two /\ never_back sc0 ops_two.
Proof. split; [by vm_compute|]. split; [by repeat constructor|]. by apply no_swap_never_back. Qed.
(** 70 LP tokens are bought with 7039.988 BLND: 57.27 go to the first pool and 12.73 to the second, one unit is lost to the rounding *)
Example ex_C78_credits : let w := run sc0 ops_two in let w' := step w (claim_two [P1; P2]) in
  ret w (claim_two [P1; P2]) = Some (OutZ 70399880000) /\ earned w P1 alice = 57599900000 /\ earned w P2 alice = 12799980000 /\
  pb_tokens (pool_bal w' P1) - pb_tokens (pool_bal w P1) = 57272725 /\ pb_tokens (pool_bal w' P2) - pb_tokens (pool_bal w P2) = 12727274 /\
  ub_shares (user_bal w' P1 alice) - ub_shares (user_bal w P1 alice) = 57272725 /\
  balance (x_tok (w_ext w')) LP bs_addr - balance (x_tok (w_ext w)) LP bs_addr = 70000000 /\
  balance (x_tok (w_ext w)) BLND bs_addr - balance (x_tok (w_ext w')) BLND bs_addr = 70399880000.
Proof. by vm_compute. Qed.
(** ** the hypotheses of [C78_earned_can_be_claimed] are met by the same history *)
Definition okp (w : World) (lp : Z) (p : Addr) : bool :=
  (0 <? unqueued w p) && (0 <? pb_tokens (pool_bal w p)) && (lp * pb_shares (pool_bal w p) <=? i128_max) && (pb_tokens (pool_bal w p) + lp <=? i128_max)
  && (pb_shares (pool_bal w p) + shares_for w p lp <=? i128_max).
Definition fitsb (w : World) (p u : Addr) : bool :=
  match bs_ecfg (x_bs (w_ext w)) !! p, bs_edata (x_bs (w_ext w)) !! p with
  | Some cfg, Some d => ((Z.min (ec_exp cfg) (w_now w) - ed_last d) * ec_eps cfg * 10000000 <=? i128_max) && (index_now w p cfg d <=? i128_max)
      && (user_gain w p u cfg d <=? i128_max) && (buacc (w_ext w) p u + user_gain w p u cfg d / 10000000 <=? i128_max)
  | _, _ => true
  end.
Lemma fitsb_ok w p u : fitsb w p u = true -> emis_fit w p u.
Proof.
  intros H cfg d Hc Hd. unfold fitsb in H. rewrite Hc, Hd in H. rewrite !andb_true_iff, !Z.leb_le in H. destruct H as (((H1 & H2) & H3) & H4).
  unfold emissions_fit. split; [exact H1|]. split; [exact H2|]. split; [exact H3|exact H4].
Qed.
Lemma okp_ok w lp p : okp w lp p = true -> ~ stuck w p /\ (pb_shares (pool_bal w p) <> 0 -> pb_tokens (pool_bal w p) <> 0) /\ lp * pb_shares (pool_bal w p) <= i128_max /\
  pb_tokens (pool_bal w p) + lp <= i128_max /\ pb_shares (pool_bal w p) + shares_for w p lp <= i128_max.
Proof.
  unfold okp. rewrite !andb_true_iff, !Z.leb_le, !Z.ltb_lt. intros ((((H1 & H2) & H3) & H4) & H5).
  split; [intros (cfg & d & _ & _ & _ & H); rewrite H in H1; lia|]. split; [intros _ H; rewrite H in H2; lia|]. split; [exact H3|]. split; [exact H4|exact H5].
Qed.
Example ex_C78_claimable : let w := run sc0 ops_two in let n := sumz (fun p => earned w p alice) [P1; P2] in
  bs_init (x_bs (w_ext w)) = true /\ em_blnd (x_em (w_ext w)) = bs_blnd (x_bs (w_ext w)) /\ bs_token (x_bs (w_ext w)) <> bs_blnd (x_bs (w_ext w)) /\ bs_token (x_bs (w_ext w)) <> bs_addr /\
  claim_fits w alice [P1; P2] 70000000 n /\ (forall p, p ∈ [P1; P2] -> ~ stuck w p /\ (pb_shares (pool_bal w p) <> 0 -> pb_tokens (pool_bal w p) <> 0)) /\ 0 < n.
Proof.
  cbv zeta. assert (bs_init (x_bs (w_ext (run sc0 ops_two))) = true /\ em_blnd (x_em (w_ext (run sc0 ops_two))) = BLND /\ bs_blnd (x_bs (w_ext (run sc0 ops_two))) = BLND /\
    bs_token (x_bs (w_ext (run sc0 ops_two))) = LP /\ forallb (okp (run sc0 ops_two) 70000000) [P1; P2] = true /\ forallb (fun p => fitsb (run sc0 ops_two) p alice) [P1; P2] = true /\
    (70000000 * sumz (fun p => earned (run sc0 ops_two) p alice) [P1; P2] <=? i128_max) = true /\
    (balance (x_tok (w_ext (run sc0 ops_two))) BLND LP + sumz (fun p => earned (run sc0 ops_two) p alice) [P1; P2] <=? i128_max) = true /\
    (balance (x_tok (w_ext (run sc0 ops_two))) LP bs_addr + 70000000 <=? i128_max) = true /\ (0 <? sumz (fun p => earned (run sc0 ops_two) p alice) [P1; P2]) = true) as H by by vm_compute.
  revert H. generalize (run sc0 ops_two). intros w (H1 & H2 & H3 & H4 & H5 & H6 & H7 & H8 & H9 & H10). rewrite !Z.leb_le in *. rewrite Z.ltb_lt in H10. rewrite forallb_forall in H5, H6.
  split; [done|]. split; [congruence|]. split; [rewrite H4, H3; done|]. split; [rewrite H4; done|]. split; [|split; [|done]].
  - split; [|rewrite H3, H4; split; [exact H7|]; split; [exact H8|exact H9]]. intros p Hp%elem_of_list_In. destruct (okp_ok _ _ _ (H5 _ Hp)) as (_ & _ & A & B & C).
    split; [apply fitsb_ok; by apply H6|]. split; [exact A|]. split; [exact B|exact C].
  - intros p Hp%elem_of_list_In. destruct (okp_ok _ _ _ (H5 _ Hp)) as (A & B & _). split; [exact A|exact B].
Qed.
(** the same claim naming the first pool twice: its emissions, over four fifths of the total, are gone; 57.27 LP tokens stay in the backstop that belong to nobody *)
Example ex_C78_named_twice : let w := run sc0 ops_two in let w' := step w (claim_two [P1; P2; P1]) in
  ret w (claim_two [P1; P2; P1]) = Some (OutZ 70399880000) /\ times P1 [P1; P2; P1] = 2%nat /\ earned w P1 alice = 57599900000 /\ earned w' P1 alice = 0 /\
  pool_bal w' P1 = pool_bal w P1 /\ user_bal w' P1 alice = user_bal w P1 alice /\
  balance (x_tok (w_ext w')) LP bs_addr - (pb_tokens (pool_bal w' P1) + pb_tokens (pool_bal w' P2)) = 57272726.
Proof. by vm_compute. Qed.
