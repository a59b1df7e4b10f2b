(* [pval tbl leaf T p e f]: f is the polynomial function of expression e (on the next row if p) when every
   expression in the set T is a committed column of its own; [leaf_le n leaf]: the columns have degree at
   most n and numbers, publics, challenges and evaluations are constants; [poly_le k f]: f is given by a
   polynomial of degree at most k. *)
From Verif Require Import Base GlModel FrField F3gModel Cubic CodegenModel CodegenProof ImModel ImProof.
Open Scope nat_scope.

(* C33 *)
Theorem C33_degree_bound : forall tbl fuel e max_deg s q n leaf, calculate_im_pols fuel tbl e max_deg = Ok (Some s, q) -> 1 <= n -> leaf_le n leaf ->
  (-1 <= q)%Z /\ (q + 1 <= Z.of_nat max_deg)%Z /\
  (forall p f, pval tbl leaf s p e f -> poly_le (Z.to_nat (q + 1) * n) f) /\
  (forall i, In i s -> (1 <= q + 1)%Z /\ exists e', nth_error tbl i = Some e' /\ forall p f, pval tbl leaf s p e' f -> poly_le (Z.to_nat (q + 1) * n) f).
Proof. exact calculate_ok. Qed.
Print Assumptions C33_degree_bound.

(* the set kept after trying all degrees *)
Theorem C33_chosen_degree_bound : forall tbl fuel c max_deg s q n leaf, choose_im fuel tbl c max_deg = Ok (s, q) -> 1 <= n -> leaf_le n leaf ->
  (s = [] /\ q = 0%Z) \/
  ((0 <= q)%Z /\ (q + 1 <= Z.of_nat max_deg)%Z /\
   (forall p f, pval tbl leaf s p c f -> poly_le (Z.to_nat (q + 1) * n) f) /\
   (forall i, In i s -> exists e', nth_error tbl i = Some e' /\ forall p f, pval tbl leaf s p e' f -> poly_le (Z.to_nat (q + 1) * n) f)).
Proof. exact choose_ok. Qed.
Print Assumptions C33_chosen_degree_bound.

(* (cm0 cm1) cm2 as expressions 0 and 1: degree 2 needs one intermediate column, degree 3 none *)
Example C33_nonvacuous :
  let tbl := [E_mul (E_cm 0 false) (E_cm 1 false); E_mul (E_exp 0 false) (E_cm 2 false)] in
  calculate_im_pols 9 tbl (E_exp 1 false) 2 = Ok (Some [0], 1%Z) /\ calculate_im_pols 9 tbl (E_exp 1 false) 3 = Ok (Some [], 2%Z) /\
  choose_im 9 tbl (E_exp 1 false) 3 = Ok ([0], 1%Z) /\
  exists f, pval tbl (fun nd x => match n_ty nd with Nnumber | Npublic | Nchallenge | Neval => kone | _ => x end) [0] false (E_exp 1 false) f.
Proof.
  split; [vm_compute; reflexivity|]. split; [vm_compute; reflexivity|]. split; [vm_compute; reflexivity|].
  eexists. eapply P_exp; [reflexivity | reflexivity | intros [H|[]]; discriminate H | reflexivity|].
  eapply P_mul; [reflexivity | reflexivity | eapply P_im; [reflexivity | reflexivity | now left] | eapply P_cm; reflexivity].
Qed.
