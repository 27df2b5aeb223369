(** * Concrete cases for C92 *)
From Coq Require Import QArith Lqa.
From Verif Require Import Base Types Token Emitter Factory Backstop PoolReserve PoolUser PoolHealth
  PoolAuction PoolSubmit PoolEmis PoolAdmin World Facts XMove Spec PoolFrame PoolCfg PoolHF PoolAccrue PropsPool1 PropsPool5 PropsPool19 PropsPool39
  Scenario ScenarioPool.
Local Open Scope Z_scope.

Definition is_some {A} (o : option A) : bool := match o with Some _ => true | None => false end.
Lemma is_some_spec {A} (o : option A) : is_some o = true <-> is_Some o.
Proof. destruct o as [x|]; split; intros H; try done; first [by exists x|by destruct H]. Qed.
(** checking a property of all the worlds of a concrete history *)
Fixpoint every (f : World -> bool) (w : World) (l : list Op) : bool :=
  f w && match l with [] => true | o :: l' => every f (step w o) l' end.
Lemma every_throughout f (P : World -> Prop) l : (forall v, f v = true -> P v) -> forall w, every f w l = true -> throughout w l P.
Proof.
  intros Hf. induction l as [|o l IH]; intros w H l1 l2 E; cbn [every] in H; apply andb_true_iff in H as [H1 H2].
  - destruct l1; [|done]. by apply Hf.
  - destruct l1 as [|o' l1]; [by apply Hf|]. injection E as <- E. cbn [run]. by apply (IH _ H2 l1 l2).
Qed.

(** the dToken rate of BBB, and how it can be kept up to date at no cost: by supplying dust *)
Definition rate_of (w : World) : Z := match reserve w P1 BBB with Some d => rd_d_rate d | None => 0 end.
Definition touch : Op := submit_op bob [(0, BBB, 100)].
(** after the year of C59, the rate modifier has fallen to 0.1 and the interest to 0.43 percent a year *)
Definition after_year : World := run sc0 (ops_rich ++ [touch]).
Definition seconds (n : nat) : list Op := concat (repeat [OTick 1 1; touch] n).

(** the hypotheses of both bounds are met by twenty seconds with an update each *)
Example ex_C92_hyps :
  reachable after_year /\ is_Some (reserve after_year P1 BBB) /\
  throughout after_year (seconds 20) (fun v => (loan_rate v P1 BBB + rate_rounding v P1 BBB <= 5 # 1000)%Q) /\
  throughout after_year (seconds 20) (fun v => (4 # 1000 <= loan_rate v P1 BBB)%Q) /\
  updates after_year P1 BBB (seconds 20) = 20.
Proof.
  split; [exact (sc_reachable _)|]. split; [apply is_some_spec; by vm_compute|].
  split; [apply (every_throughout (fun v => Qle_bool (loan_rate v P1 BBB + rate_rounding v P1 BBB) (5 # 1000))); [by intros v Hv; apply Qle_bool_iff|by vm_compute]|].
  split; [apply (every_throughout (fun v => Qle_bool (4 # 1000) (loan_rate v P1 BBB))); [by intros v Hv; apply Qle_bool_iff|by vm_compute]|].
  by vm_compute.
Qed.

(** The 2e-9 for each update are not an artefact of the proof: in twenty seconds the curve makes the
    dToken rate grow by less than 3 units of the ninth decimal; with one update it grows by 4, but
    with an update in each second, which anyone can cause, by 40. *)
Example ex_C92_rounding :
  rate_of after_year = 1043333400 /\
  Qle_bool (inject_Z 1043333400 * (years 0 20 * loan_rate after_year P1 BBB)) 3 = true /\
  rate_of (run after_year [OTick 20 20; touch]) = 1043333404 /\
  rate_of (run after_year (seconds 20)) = 1043333440.
Proof. repeat (split; [by vm_compute|]). by vm_compute. Qed.

(** the worst rate: ten times the base rate and the slopes *)
Example ex_C92_worst : match reserve after_year P1 BBB, ps_rcfg (pool after_year P1) !! BBB with
  | Some d, Some cfg => (util_of d <=? 10000000) && (0 <? util_of d) && Qeq_bool (worst_rate cfg) (71 # 10)
  | _, _ => false end = true.
Proof. by vm_compute. Qed.
