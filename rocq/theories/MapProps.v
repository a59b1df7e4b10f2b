From Coq Require Import String Permutation.
From Verif Require Import Base GlModel FrField F3gModel CodegenModel CodegenProof InterpModel MapModel MapProof.
Open Scope nat_scope.

(* C49 *)
Theorem C49_index_get_after_set : forall name, In name names -> forall (x : index nat) v, exists x', index_set x name v = Ok x' /\
  index_get x' name = Some v /\ forall other, other <> name -> index_get x' other = index_get x other.
Proof. exact index_get_set. Qed.
Print Assumptions C49_index_get_after_set.
Theorem C49_index_unknown_name : forall name, ~ In name names -> forall (x : index nat) v, index_get x name = None /\ index_set x name v = Panic.
Proof. exact index_unknown. Qed.
Print Assumptions C49_index_unknown_name.
Theorem C49_index_named_field : forall name, In name names -> forall x : index nat, index_get x name = field x name.
Proof. exact index_ok. Qed.
Print Assumptions C49_index_named_field.
Theorem C49_indexvec_partial : forall name, In name names -> name <> "f_2ns"%string ->
  forall x, exists l, indexvec_get x name = Ok l /\ field x name = Some l.
Proof. exact indexvec_ok. Qed.
Print Assumptions C49_indexvec_partial.
Theorem C49_indexvec_f_2ns_refuted : exists x, indexvec_get x "f_2ns" = Ok [1] /\ field x "f_2ns" = Some [2].
Proof. exact indexvec_f_wrong. Qed.
Print Assumptions C49_indexvec_f_2ns_refuted.
Example C49_nonvacuous : List.length names = 11 /\
  rmap (fun x => (index_get x "q_2ns", index_get x "f_2ns")) (index_set (mkIx 1 2 3 4 5 6 7 8 9 10 11) "q_2ns" 77) = Ok (Some 77, Some 11).
Proof. split; reflexivity. Qed.

(* C34 *)
Theorem C34_sections_are_tiled : forall l, Forall (fun x => pt_dim x = 1 \/ pt_dim x = 3) l ->
  exists l' w, map_section l = Ok (l', w) /\ map (fun x => (pt_sec x, pt_dim x)) l' = map (fun x => (pt_sec x, pt_dim x)) l /\
    forall s, In s names -> exists n, index_get (w_n w) s = Some n /\
      Permutation (flat_map (fun x => seq (pt_pos x) (pt_dim x)) (filter (fun x => String.eqb (pt_sec x) s) l')) (seq 0 n) /\
      index_get (w_n1 w) s = Some (List.length (filter (fun x => String.eqb (pt_sec x) s && (pt_dim x =? 1)) l)) /\
      index_get (w_n3 w) s = Some (List.length (filter (fun x => String.eqb (pt_sec x) s && (pt_dim x =? 3)) l)).
Proof. exact map_section_ok. Qed.
Print Assumptions C34_sections_are_tiled.
Theorem C34_offsets_are_tiled : forall nbits nbits_ext n, let '(off, total, deg) := map_offsets nbits nbits_ext n in
  flat_map (fun s => seq (get0 off s) (get0 deg s * get0 n s)) mem_order = seq 0 total /\
  (forall s, In s mem_order -> get0 deg s = 2 ^ (if existsb (String.eqb s) ["cm1_n"; "cm2_n"; "cm3_n"; "cm4_n"; "tmpexp_n"]%string then nbits else nbits_ext)) /\
  Permutation mem_order names.
Proof. exact offsets_ok. Qed.
Print Assumptions C34_offsets_are_tiled.
Example C34_nonvacuous :
  rmap (fun r => (map pt_pos (fst r), index_get (w_n (snd r)) "cm1_n", index_get (w_n3 (snd r)) "cm1_n"))
    (map_section [mkPT "cm1_n" 0 3; mkPT "cm1_n" 0 1; mkPT "cm2_n" 0 1; mkPT "cm1_n" 0 1]) = Ok ([2; 0; 0; 1], Some 5, Some 1).
Proof. vm_compute. reflexivity. Qed.

(* C51 *)
Theorem C51_expression_dimension : forall tbl rho cmd q2,
  (forall i k p, nth_error cmd i = Some k -> k <= 1 -> d3 (rho (N_new Ncm i None p)) = false) ->
  (forall i p, d3 (rho (N_new Nconst i None p)) = false) ->
  (forall v, d3 (rho (N_new Nnumber 0 v false)) = false) ->
  (forall i, d3 (rho (N_new Npublic i None false)) = false) ->
  d3 (rho (N_new Nx 0 None false)) = false ->
  (forall p i j e', nth_error q2 i = Some j -> nth_error tbl j = Some e' -> den tbl rho p e' (rho (N_new Nq i None p))) ->
  forall fuel e d p v, get_exp_dim fuel tbl cmd q2 e = Ok d -> den tbl rho p e v -> d <= 1 -> d3 v = false.
Proof. exact exp_dim_sound. Qed.
Print Assumptions C51_expression_dimension.
Theorem C51_code_dimensions : forall vals cm_dim q_dim dim_x,
  (forall k n d, n_ty n <> Ntmp -> get_dim cm_dim q_dim dim_x (fun _ => None) n = Ok d -> d <= 1 -> d3 (vals k n) = false) ->
  forall l k tmp td ds vs,
    (forall j w, tmp j = Some w -> exists e, td j = Some e /\ (e <= 1 -> d3 w = false)) ->
    code_dims cm_dim q_dim dim_x td l = Ok ds -> results vals k tmp l = Some vs -> Forall2 (fun d v => d <= 1 -> d3 v = false) ds vs.
Proof. exact code_dim_sound. Qed.
Print Assumptions C51_code_dimensions.
Theorem C51_column_dimensions_refuted :
  exists dims pushed, map_dims 10 bad_tbl [] 1 [] 1 [0; 1] 2 1 = Ok (dims, pushed) /\
    nth_error pushed 1 = Some 3 /\ nth_error pushed 3 = Some 1 /\
    exists rho v, (forall i k p, nth_error [1; 3] i = Some k -> k <= 1 -> d3 (rho (N_new Ncm i None p)) = false) /\
      (forall e, nth_error bad_tbl 1 = Some e -> den bad_tbl rho false e v) /\ d3 v = true.
Proof. exact map_dims_wrong. Qed.
Print Assumptions C51_column_dimensions_refuted.
Example C51_nonvacuous :
  get_exp_dim 9 bad_tbl [1; 1] [] (E_exp 2 false) = Ok 1 /\ get_exp_dim 9 bad_tbl [1; 3] [] (E_exp 2 false) = Ok 3 /\
  code_dims (fun i => Ok (if i =? 0 then 1 else 3)) (fun _ => Panic) 1 (fun _ => None)
    [mkI CMul (N_new Ntmp 0 None false) [N_new Ncm 0 None false; N_new Nconst 0 None true];
     mkI CAdd (N_new Ntmp 1 None false) [N_new Ntmp 0 None false; N_new Ncm 1 None false]] = Ok [1; 3].
Proof. split; [vm_compute; reflexivity|]. split; vm_compute; reflexivity. Qed.
