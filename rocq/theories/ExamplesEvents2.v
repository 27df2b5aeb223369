(** * Concrete cases for C88 *)
From Verif Require Import Base Types Token Emitter Factory Backstop PoolReserve PoolUser PoolHealth
  PoolAuction PoolSubmit PoolEmis PoolAdmin World Facts Spec PoolCfg Events PropsPool1 PropsPool3 PropsPool4 PropsBackstop PropsEvents1 PropsEvents2 PropsEvents3 PropsEmitter PropsAdmin PropsEvents4
  Scenario ScenarioPool PropsPool10 ExamplesAdmin ExamplesEvents.

Definition unaskedb (K : Addr) (w : World) (o : Op) : bool :=
  match o with
  | OExt _ (TMint k to _) | OExt _ (TTransfer k _ to _) | OExt _ (TTransferFrom k _ _ to _) => (k =? K) && (to =? bs_addr)
  | OExt _ ESwap => em_backstop (x_em (w_ext w)) =? bs_addr
  | OExt _ (BClaim _ _ _ _) => bs_token (x_bs (w_ext w)) =? bs_addr
  | OPool _ _ (PSubmit _ _ to _) => to =? bs_addr
  | OPool _ p (PClaim _ _ to) => (to =? bs_addr) || negb (ps_backstop (pool w p) =? bs_addr) || negb (ps_blnd (pool w p) =? K)
  | _ => false
  end.
Lemma unaskedb_spec K w o : unaskedb K w o = false -> ~ unasked K w o.
Proof.
  intros H G. destruct o as [sg xo|sg p po| | | | | | | |]; try done; [destruct xo|destruct po]; cbn [unasked unaskedb] in *; try done.
  all: repeat match goal with H : (_ || _) = false |- _ => apply orb_false_elim in H as [? ?] | H : negb _ = false |- _ => apply negb_false_iff in H | H : (_ =? _) = true |- _ => apply Z.eqb_eq in H | H : (_ =? _) = false |- _ => apply Z.eqb_neq in H end; try tauto.
  all: destruct G as [-> ->]; by rewrite !Z.eqb_refl in H.
Qed.
Fixpoint all_asked (K : Addr) (w : World) (l : list Op) : bool := match l with [] => true | o :: l => negb (unaskedb K w o) && all_asked K (step w o) l end.
Lemma all_asked_spec K l : forall w, all_asked K w l = true -> forall l1 o l2, l = l1 ++ o :: l2 -> ~ unasked K (run w l1) o.
Proof.
  induction l as [|o l IH]; intros w H l1 o' l2 E; [by destruct l1|]. cbn [all_asked] in H. apply andb_prop in H as [H1 H2]. apply negb_true_iff in H1.
  destruct l1 as [|o1 l1]; injection E as -> ->; [by apply unaskedb_spec|]. change (run w (o1 :: l1)) with (run (step w o1) l1). by eapply IH.
Qed.

(** emissions handed out to pools and depositors: a day's distribution, a claim of a pool's user, a claim of a depositor *)
Definition ops_paid : list Op := ops_day ++ [OPool [alice] P1 (PClaim alice [1; 2; 1] bob); OExt [alice] (BClaim alice [P1] bob 5000000); OTick 3600 720; OExt [] EDistribute].
Definition money (se : Z * Event) : bool := negb (blnd_flow (snd se) =? 0).
Definition ops_gone : list Op := ops_swap ++ [OTick 2678400 500000; OExt [] ESwap].
Example ex_C88_paid : List.filter money (event_log sc0 ops_paid) =
    [(18280, VDistribute bs_addr 864000000000); (35560, VClaim P1 alice [1; 2; 1] 24685595000); (35560, VBClaim alice 57599900000); (36280, VDistribute bs_addr 900000000000)] /\
  all_ok sc0 ops_paid = true /\ all_asked BLND sc0 ops_paid = true /\
  held sc0 BLND bs_addr = 0 /\ held (run sc0 ops_paid) BLND bs_addr = 864000000000 - 24685595000 - 57599900000 + 900000000000 /\
  bs_init (x_bs (w_ext (run sc0 ops_paid))) = true /\ bs_blnd (x_bs (w_ext (run sc0 ops_paid))) = BLND /\ em_blnd (emitter (run sc0 ops_paid)) = BLND /\
  bool_decide (bs_token (x_bs (w_ext (run sc0 ops_paid))) = BLND) = false.
Proof. by vm_compute. Qed.
(** BLND sent to the backstop unasked stays there without an event *)
Example ex_C88_gift : let l := ops_emit ++ [OExt [] (TMint BLND bs_addr 777)] in
  held (run sc0 l) BLND bs_addr = 864000000777 /\ blnd_flows (event_log sc0 l) = 864000000000 /\ all_asked BLND sc0 l = false.
Proof. by vm_compute. Qed.
(** Finding: [swap_backstop] mints the old backstop everything emitted since its last distribution, and publishes only the swap. *)
Theorem C88_swap_pays_silently : exists w w', reachable w /\ exec w (OExt [] ESwap) = Ok (OutUnit, w') /\
  (exists s, events w (OExt [] ESwap) = [VSwap s]) /\ held w' BLND bs_addr - held w BLND bs_addr = 26784000000000.
Proof.
  destruct (ret_exec (run sc0 (ops_swap ++ [OTick 2678400 500000])) (OExt [] ESwap) OutUnit) as [w' H]; [by vm_compute|].
  exists (run sc0 (ops_swap ++ [OTick 2678400 500000])), w'. split; [exact (sc_reachable _)|]. split; [exact H|].
  assert (w' = step (run sc0 (ops_swap ++ [OTick 2678400 500000])) (OExt [] ESwap)) as -> by (unfold step; by rewrite H). clear H.
  split; [exists (mkSwap BIG LP 1715904000); by vm_compute|by vm_compute].
Qed.
