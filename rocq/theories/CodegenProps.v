(* C30-C32: traversal of expressions and generation of straight-line code.
   [post] is the plain recursive post-order evaluation. [den tbl rho p e v] says that expression e has
   value v, on the next row when p holds: operators act on F3G, references to expressions are looked up
   in tbl, and rho gives the value of every other reference. [run rho s l] executes the instructions l
   on a store s of temporaries and expression values; reading a cell that was not written fails. [wf_e e] says that every operator of e has its
   operands. *)
From Verif Require Import Base GlModel FrField F3gModel CodegenModel CodegenProof.
Open Scope nat_scope.
Open Scope res_scope.

(* C30: for any node processing function and any state, errors included *)
Theorem C30_traversal_is_postorder : forall (St R : Type) (process : St -> expr -> list R -> res (R * St)) root s,
  postorder_traversal process root s = post St R process root s.
Proof. exact traversal_post. Qed.
Print Assumptions C30_traversal_is_postorder.

Theorem C30_visits_each_node_once : forall e,
  postorder_traversal (fun log n (_ : list unit) => Ok (tt, log ++ [n])) e [] = Ok (tt, post_nodes e).
Proof. exact visits_once. Qed.
Print Assumptions C30_visits_each_node_once.

(* (1 + 2) * (3 - 4) *)
Example C30_nonvacuous :
  rmap (fun r => map e_value (snd r)) (postorder_traversal (fun log n (_ : list unit) => Ok (tt, log ++ [n]))
    (E_mul (E_add (E_number 1) (E_number 2)) (E_sub (E_number 3) (E_number 4))) []) =
  Ok [Some 1; Some 2; None; Some 3; Some 4; None; None]%Z.
Proof. vm_compute. reflexivity. Qed.

(* C32 *)
Theorem C32_muladd_keeps_meaning : forall e, wf_e e -> exists e', find_muladd e = Ok e' /\
  forall tbl rho p v, den tbl rho p e v <-> den tbl rho p e' v.
Proof. exact muladd_spec. Qed.
Print Assumptions C32_muladd_keeps_meaning.

(* x0 + x1 * (x2 * x3 + x4) *)
Example C32_nonvacuous :
  find_muladd (E_add (E_cm 0 false) (E_mul (E_cm 1 false) (E_add (E_mul (E_cm 2 false) (E_cm 3 false)) (E_cm 4 false)))) =
  Ok (E_new OMuladd None None [E_cm 1 false; E_new OMuladd None None [E_cm 2 false; E_cm 3 false; E_cm 4 false]; E_cm 0 false]).
Proof. vm_compute. reflexivity. Qed.

(* C31: the new code, run on any store that already holds the values of the expressions marked as
   calculated, leaves the value of every expression now marked (among them the requested one) in its
   place and copies it to the result reference if one is given; nothing else changes but temporaries *)
Theorem C31_code_computes_expression : forall tbl rho, rho (N_new Nnumber 0 (Some 0%Z) false) = e_ZERO -> Forall wf_e tbl ->
  forall fuel r m c i p c',
  pil_code_gen fuel tbl r m c i p = Ok c' ->
  (r = None \/ exists ty rid, r = Some (ty, rid) /\ ty <> Ntmp /\ ty <> Nexp /\ ~ In (p, i) (x_calc c)) ->
  In (p, i) (x_calc c') /\ incl (x_calc c) (x_calc c') /\
  exists ext, linear_code c' = linear_code c ++ ext /\
    forall s, good tbl rho (x_calc c) s -> exists s', run rho s ext = Some s' /\ good tbl rho (x_calc c') s' /\
      (forall x, (forall j, x <> tmpk j) -> (forall pr i, x = (Nexp, i, pr) -> In (pr, i) (x_calc c) \/ ~ In (pr, i) (x_calc c')) ->
        ~ res_key r p x -> s' x = s x) /\
      (forall ty rid, r = Some (ty, rid) -> s' (ty, rid, p) = s' (Nexp, i, p)).
Proof. exact codegen_ok. Qed.
Print Assumptions C31_code_computes_expression.

(* the value is unique, so "the value of the expression" makes sense *)
Theorem C31_value_unique : forall tbl rho p e v, den tbl rho p e v -> forall w, den tbl rho p e w -> v = w.
Proof. exact den_fun. Qed.
Print Assumptions C31_value_unique.

(* expression 1 = (expression 0 on the next row) * x1 - x0, with expression 0 = x0 + 5; columns hold
   10 + id, and 100 more on the next row *)
Example C31_nonvacuous :
  let tbl := [E_add (E_cm 0 false) (E_number 5); E_sub (E_mul (E_exp 0 true) (E_cm 1 false)) (E_cm 0 false)] in
  let rho := fun n => e_from (fof (match n_value n with Some k => k | None => Z.of_nat (n_id n) + 10 + (if n_prime n then 100 else 0) end)) in
  match pil_code_gen 5 tbl (Some (Nf, 0)) true (mkCtx 0 [] []) 1 false with
  | Ok c => length (linear_code c) = 4 /\
      option_map (fun s => map (option_map (fun v => fint (c0 v))) [s (Nf, 0, false); s (Nexp, 0, true)]) (run rho (fun _ => None) (linear_code c)) =
      Some [Some (115 * 11 - 10); Some 115]%Z
  | _ => False
  end.
Proof. split; vm_compute; reflexivity. Qed.
