(* Properties of the comparisons written by the circuit generators. *)
From Verif Require Import Base GcheckModel GcheckProof.
Open Scope nat_scope.

(* C107: a circuit makes every comparison that the verifier makes *)
Theorem C107_onchain : forall agree g, 0 < gs_cm2 g -> 0 < gs_cm3 g ->
  accepts agree (oc_checks g) -> accepts agree (v_checks 1 g).
Proof. exact oc_sound. Qed.
Print Assumptions C107_onchain.
Theorem C107_recursive : forall agree g, 0 < gs_cm2 g -> 0 < gs_cm3 g -> 2 <= gs_steps g ->
  accepts agree (gl_checks g) -> accepts agree (v_checks 4 g).
Proof. exact gl_sound. Qed.
Print Assumptions C107_recursive.
(* refuted with one step: the recursive circuit only looks at the last polynomial, whatever the openings and roots are, and the
   verifier compares the root of every opening *)
Theorem C107_single_step_refuted : forall (agree : check -> Prop) g, gs_steps g = 1 -> (forall k e, agree (CkLast k e)) -> accepts agree (gl_checks g).
Proof. exact gl_single. Qed.
Print Assumptions C107_single_step_refuted.
Theorem C107_verifier_roots : forall w g t q j, q < gs_queries g -> j < w -> In (CkRoot t q j) (v_checks w g).
Proof. exact v_roots. Qed.
Print Assumptions C107_verifier_roots.
(* refuted with an empty second tree: neither circuit looks at its root, which the verifier compares *)
Theorem C107_empty_tree_refuted : forall (agree : check -> Prop) g, gs_cm2 g = 0 -> (forall c, (forall q j, c <> CkRoot Tr2 q j) -> agree c) ->
  accepts agree (gl_checks g) /\ accepts agree (oc_checks g).
Proof. exact empty_tree. Qed.
Print Assumptions C107_empty_tree_refuted.
Example C107_nonvacuous : let g := mkGS 2 1 1 1 2 1 in
  accepts (fun _ => True) (oc_checks g) /\ accepts (fun _ => True) (gl_checks g) /\
  length (gl_checks g) = 36 /\ length (oc_checks g) = 18 /\ length (v_checks 4 g) = 33.
Proof. cbn zeta. split; [apply Forall_forall; intros; exact I|]. split; [apply Forall_forall; intros; exact I|]. repeat split. Qed.
Example C107_nonvacuous_single : let g := mkGS 1 8 1 1 5 1 in
  let agree c := match c with CkLast _ _ => True | _ => False end in
  accepts agree (gl_checks g) /\ ~ accepts agree (v_checks 4 g).
Proof.
  cbn zeta. split; [apply gl_single; [reflexivity|intros; exact I]|]. unfold accepts. rewrite Forall_forall. intros H.
  exact (H (CkRoot Tr1 0 0) (v_roots 4 (mkGS 1 8 1 1 5 1) Tr1 0 0 (Nat.lt_0_succ 7) (Nat.lt_0_succ 3))).
Qed.
Example C107_nonvacuous_empty : let g := mkGS 2 1 0 1 2 1 in gs_cm2 g = 0 /\ In (CkRoot Tr2 0 0) (v_checks 4 g).
Proof. split; [reflexivity|apply v_roots; [exact (Nat.lt_0_succ 0)|exact (Nat.lt_0_succ 3)]]. Qed.
