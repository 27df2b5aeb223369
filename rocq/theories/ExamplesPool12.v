(** * Concrete cases for C71 *)
From Verif Require Import Base Types Token Emitter Factory Backstop PoolReserve PoolUser PoolHealth
  PoolAuction PoolSubmit PoolEmis PoolAdmin World Facts XMove Spec PropsPool1 PropsPool2 PropsPool3 PropsPool29 Scenario ScenarioPool ExamplesPool6.

(** carol and bob together, over two pools, a year after a loan: bob withdraws and hands the tokens to carol, who supplies and borrows in
    both pools, and pays back; all is accepted, and they lose a little to the rounding *)
Definition submit_to (a u t : Addr) (l : list (Z * Z * Z)) : Op :=
  OPool [u] a (PSubmit u u t (map (fun e => mkReq e.1.1 e.1.2 e.2) l)).
Definition ops_two : list Op := ops_loan ++ ops_second ++ [OTick 31536000 5000000; OOracle (orc0 (t0 + 86400 + 31536000) 10000000 13000000)].
Definition ops_group : list Op :=
  [submit_to P1 bob carol [(1, BBB, 7000000001)]; submit_to P1 carol bob [(2, AAA, 30000000007); (4, BBB, 3333333333)];
   submit_to P2 carol carol [(2, AAA, 30000000007)]; OOracle (orc0 (t0 + 86400 + 31536000) 11000000 12000000);
   submit_to P1 carol carol [(5, BBB, 1111111111); (3, AAA, 17)]].
Example ex_C71_hypotheses : Forall (group_op [P1; P2] [bob; carol]) ops_group /\ all_ok sc0 (ops_two ++ ops_group) = true /\
  NoDup [P1; P2] /\ NoDup [bob; carol] /\ (forall u, u ∈ [bob; carol] -> u ∉ [P1; P2]).
Proof.
  split; [|split; [by vm_compute|]].
  - assert (forall a u t l, a ∈ [P1; P2] -> u ∈ [bob; carol] -> t ∈ [bob; carol] -> Forall (fun e => 0 <= e.1.1 <= 5) l -> group_op [P1; P2] [bob; carol] (submit_to a u t l)) as Hs.
    { intros a u t l Ha Hu Ht Hl. left. unfold submit_to. do 6 eexists. split; [reflexivity|]. do 4 (split; [done|]). apply Forall_forall. intros q Hq. apply elem_of_list_In, in_map_iff in Hq as (e & <- & He).
      rewrite Forall_forall in Hl. apply Hl. by apply elem_of_list_In. }
    unfold ops_group. apply Forall_cons. split; [apply Hs; by apply (bool_decide_unpack _); vm_compute|]. apply Forall_cons. split; [apply Hs; by apply (bool_decide_unpack _); vm_compute|].
    apply Forall_cons. split; [apply Hs; by apply (bool_decide_unpack _); vm_compute|]. apply Forall_cons. split; [right; by eexists|].
    apply Forall_cons. split; [apply Hs; by apply (bool_decide_unpack _); vm_compute|]. done.
  - split; [by apply (bool_decide_unpack _); vm_compute|]. split; [by apply (bool_decide_unpack _); vm_compute|]. apply Forall_forall. by apply (bool_decide_unpack _); vm_compute.
Qed.
Example ex_C71_rounding :
  let w := run sc0 ops_two in let w' := run sc0 (ops_two ++ ops_group) in
  (wealth w' [P1; P2] [bob; carol] AAA - wealth w [P1; P2] [bob; carol] AAA, wealth w' [P1; P2] [bob; carol] BBB - wealth w [P1; P2] [bob; carol] BBB) = (0, -1161921560).
Proof. by vm_compute. Qed.
