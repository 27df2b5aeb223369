(** * What somebody who signs nothing can come to owe (C93) *)
From Coq Require Import QArith Qfield Lqa.
From Verif Require Import Base Types Token Emitter Factory Backstop PoolReserve PoolUser PoolHealth
  PoolAuction PoolSubmit PoolEmis PoolAdmin World Facts XMove Spec PoolFrame PoolCfg PoolAccrue PoolTrace PoolInv AuctionFacts
  PoolSim PoolReq PoolHF PoolOps PoolLiq PoolReach PoolTx FrameFacts PropsAdmin PropsAdmin2 PropsAdmin3 PropsPool1 PropsPool2 PropsPool3 PropsPool5 PropsPool19 PropsPool39.
Local Open Scope Z_scope.

(** ** Specification: what [u] owes of the [i]-th asset, [r], of the pool at [a], at the stored rate:
    his dTokens times the dToken rate, rounded up *)
Definition owes (w : World) (a u i r : Addr) : Z :=
  match reserve w a r with Some d => cdiv (liab_of w a u i * rd_d_rate d) 1000000000 | None => 0 end.

(** ** Proofs *)
Lemma silent_dtokens l : forall w a u i, reachable w -> ps_init (pool w a) = true -> u <> ps_backstop (pool w a) ->
  (forall o, o ∈ l -> u ∉ signers o) -> liab_of (run w l) a u i <= liab_of w a u i.
Proof.
  induction l as [|o l IH]; intros w a u i Hr Hi Hb Hu; [cbn [run]; lia|]. cbn [run].
  destruct (proj2 (proj2 (proj2 (C61_initialized_once w [o]))) a Hi) as (Hi1 & Hb1 & _). change (run w [o]) with (step w o) in Hi1, Hb1.
  assert (reachable (step w o)) as Hr1 by exact (reachable_run w [o] Hr).
  pose proof (IH (step w o) a u i Hr1 Hi1 ltac:(by rewrite Hb1) ltac:(intros o' Ho'; apply Hu; by right)) as H1.
  assert (liab_of (step w o) a u i <= liab_of w a u i); [|lia].
  unfold step. destruct (exec w o) as [[out w1]|e] eqn:E; [|lia]. by destruct (C12_isolation w o out w1 a u i Hr E (Hu o ltac:(left)) Hb) as (_ & H2 & _).
Qed.
Lemma liab_of_nonneg w a u i : reachable w -> 0 <= liab_of w a u i.
Proof.
  intros Hr. unfold liab_of, amount_at. destruct (po_liab (positions w a u) !! i) as [v|] eqn:E; [|simpl; lia]. simpl.
  destruct (C02_positions_positive w a u i v Hr ltac:(tauto)) as [? _]. lia.
Qed.
Lemma cdiv_Q (x : Z) : 0 <= x -> (inject_Z x <= inject_Z (cdiv x 1000000000) * 1000000000)%Q /\ (inject_Z (cdiv x 1000000000) * 1000000000 <= inject_Z x + 1000000000)%Q.
Proof.
  intros H. pose proof (cdiv_spec x 1000000000 ltac:(lia)) as Hc. set (c := cdiv x 1000000000) in *. clearbody c.
  assert (x <= c * 1000000000) as H1 by lia. assert (c * 1000000000 <= x + 1000000000) as H2 by lia.
  rewrite Zle_Qle in H1, H2. rewrite inject_Z_mult in H1, H2. rewrite inject_Z_plus in H2. done.
Qed.

(** ** C93

    Over any history in which [u] signs nothing, he never comes to owe more dTokens than before, of
    any asset, and the debt grows by no more than the interest of C92, however many liquidations,
    auctions and configuration changes the history contains. *)
Theorem C93_silent_dtokens : forall l w a u i,
  reachable w -> ps_init (pool w a) = true -> u <> ps_backstop (pool w a) -> (forall o, o ∈ l -> u ∉ signers o) ->
  0 <= liab_of (run w l) a u i <= liab_of w a u i.
Proof. intros l w a u i Hr Hi Hb Hu. split; [apply liab_of_nonneg; by apply reachable_run|by apply silent_dtokens]. Qed.

Theorem C93_silent_debt : forall l w a u i r d R,
  reachable w -> reserve w a r = Some d -> u <> ps_backstop (pool w a) -> (forall o, o ∈ l -> u ∉ signers o) ->
  (0 <= R)%Q -> throughout w l (fun v => (loan_rate v a r + rate_rounding v a r <= R)%Q) ->
  exists d', reserve (run w l) a r = Some d' /\ rd_last_time d <= rd_last_time d' /\
    (inject_Z (owes (run w l) a u i r) * (1 - (years (rd_last_time d) (rd_last_time d') * R + inject_Z (updates w a r l) * (2 # 1000000000)))
       <= inject_Z (owes w a u i r) + 1)%Q.
Proof.
  intros l w a u i r d R Hr Hd Hb Hu HR Ht. pose proof (gd_init _ (init_of_data _ _ _ _ Hr Hd)) as Hi.
  destruct (C92_debt_growth l w a r d R Hr Hd HR Ht) as (d' & Hd' & Hle & Hg). exists d'. split; [done|]. split; [done|].
  pose proof (C93_silent_dtokens l w a u i Hr Hi Hb Hu) as [N0 N1]. assert (reachable (run w l)) as Hr' by (by apply reachable_run).
  pose proof (ro_d _ (good_rd _ _ _ (init_of_data _ _ _ _ Hr Hd) Hd)) as D0.
  pose proof (ro_d _ (good_rd _ _ _ (init_of_data _ _ _ _ Hr' Hd') Hd')) as D1. vals.
  unfold owes. rewrite Hd, Hd'. set (n' := liab_of (run w l) a u i) in *. set (n := liab_of w a u i) in *.
  pose proof (years_nonneg _ _ Hle) as Y. pose proof (updates_nonneg a r l w) as U.
  set (X := (years (rd_last_time d) (rd_last_time d') * R + inject_Z (updates w a r l) * (2 # 1000000000))%Q) in *.
  assert (0 <= X)%Q as HX. { rewrite Zle_Qle in U. change (inject_Z 0) with 0%Q in U. pose proof (Qmult_le_0_compat _ _ Y HR). unfold X. lra. }
  clearbody X n n'. clear Ht Hu U Y.
  destruct (cdiv_Q (n * rd_d_rate d) ltac:(nia)) as [A _]. destruct (cdiv_Q (n' * rd_d_rate d') ltac:(nia)) as [_ B].
  assert (0 <= cdiv (n * rd_d_rate d) 1000000000) as C by (apply cdiv_nonneg; nia). assert (0 <= cdiv (n' * rd_d_rate d') 1000000000) as C' by (apply cdiv_nonneg; nia).
  set (o := cdiv (n * _) _) in *. set (o' := cdiv (n' * _) _) in *. clearbody o o'.
  rewrite inject_Z_mult in A, B. rewrite Zle_Qle in C, C', N0, N1, D0, D1. change (inject_Z 0) with 0%Q in *.
  set (qo := inject_Z o) in *. set (qo' := inject_Z o') in *. set (qn := inject_Z n) in *. set (qn' := inject_Z n') in *.
  set (r0 := inject_Z (rd_d_rate d)) in *. set (r1 := inject_Z (rd_d_rate d')) in *. change (inject_Z 1000000000) with (1000000000 # 1)%Q in *.
  clearbody qo qo' qn qn' r0 r1.
  destruct (Qlt_le_dec 1 X) as [HX1|HX1].
  - assert (0 <= qo' * (X - 1))%Q by (apply Qmult_le_0_compat; lra). lra.
  - assert (qn' * (r1 * (1 - X)) <= qn' * r0)%Q as S1 by (rewrite !(Qmult_comm qn'); apply Qmult_le_compat_r; done).
    assert (qn' * r0 <= qn * r0)%Q as S2 by (apply Qmult_le_compat_r; [done|lra]).
    assert (qo' * 1000000000 * (1 - X) <= (qn' * r1 + 1000000000) * (1 - X))%Q as S3 by (apply Qmult_le_compat_r; [done|lra]).
    assert (0 <= X * 1000000000)%Q by lra. lra.
Qed.
