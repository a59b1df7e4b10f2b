(* C62: the verifier's constraint code. [den tbl rho p e v] says that v is the value of expression e on
   the current (p = false) or next row when references have the values rho; [with_im im tbl] is the table
   whose intermediate expressions are replaced by their columns; [kpoly X l] is the polynomial with
   coefficients l at X. [answers] says that the evaluations sent are those listed in ev_map and that
   numbers, challenges and publics have the values rho. *)
From Verif Require Import Base GlModel FrField F3gModel Cubic F3gProof ListAux CodegenModel CodegenProof InterpModel VerifierModel VerifierProof.
Open Scope nat_scope.
Open Scope res_scope.

Theorem C62_code_computes_constraint : forall fuel tbl im c_exp qs code e, verifier_code fuel tbl im c_exp qs = Ok (code, e) ->
  Forall wf_e tbl -> Forall (fun p => fst p < length tbl) im -> assoc Nat.eqb im c_exp = None ->
  forall x rho, answers x rho code e ->
  exists e0 v, nth_error tbl c_exp = Some e0 /\ den (with_im im tbl) rho false e0 v /\ execute_code x code = Ok v.
Proof. exact verifier_ok. Qed.
Print Assumptions C62_code_computes_constraint.

(* the check accepts exactly if the constraint equals the quotient times x^N - 1 at the challenge xi *)
Theorem C62_check : forall fuel tbl im c_exp qs code e, verifier_code fuel tbl im c_exp qs = Ok (code, e) ->
  Forall wf_e tbl -> Forall (fun p => fst p < length tbl) im -> assoc Nat.eqb im c_exp = None ->
  forall x rho xi nbits, answers x rho code e -> (forall n, wf (rho n)) -> nth_error (v_challenge x) 7 = Some xi -> wf xi ->
  exists e0 v b, nth_error tbl c_exp = Some e0 /\ den (with_im im tbl) rho false e0 v /\
    check_constraint x code e qs nbits = Ok b /\
    let X := kpow (val xi) (2 ^ nbits) in
    (b = true <-> val v = kmul (kpoly X (map (fun c => val (rho (N_new Ncm c None false))) qs)) (ksub X kone)).
Proof. exact check_ok. Qed.
Print Assumptions C62_check.

(* expression 1 = (expression 0 on the next row) * x1 + 3 with expression 0 = x0 * x0 the intermediate
   column 2: the code reads the evaluations of column 2 shifted and of column 1; the quotient column is 3 *)
Example C62_nonvacuous :
  let tbl := [E_mul (E_cm 0 false) (E_cm 0 false); E_add (E_mul (E_exp 0 true) (E_cm 1 false)) (E_number 3)] in
  let x q := mkV [] [] [] [] [] [e_from (fof 4); e_from (fof 5); e_from (fof q)] [] (repeat (e_from f1) 7 ++ [e_from (fof 2)]) [] [] e_ZERO e_ZERO in
  match verifier_code 5 tbl [(0, 2)] 1 [3] with
  | Ok (code, e) => ev_map e = [(true, true, 2); (true, false, 1); (true, false, 3)] /\ length code = 1 /\
      rmap (fun v => fint (c0 v)) (execute_code (x 0%Z) code) = Ok 23%Z /\
      answers (x 0%Z) (fun n => match n_ty n with
                              | Ncm => if n_id n =? 2 then e_from (fof 4) else if n_id n =? 1 then e_from (fof 5) else e_from (fof 0)
                              | Neval => nth (n_id n) [e_from (fof 4); e_from (fof 5); e_from (fof 0)] e_ZERO
                              | _ => match n_value n with Some k => e_from (fof k) | None => e_ZERO end end) code e /\
      check_constraint (x 0%Z) code e [3] 0 = Ok false /\ check_constraint (x 23%Z) code e [3] 0 = Ok true
  | _ => False
  end.
Proof.
  assert (E : verifier_code 5 [E_mul (E_cm 0 false) (E_cm 0 false); E_add (E_mul (E_exp 0 true) (E_cm 1 false)) (E_number 3)] [(0, 2)] 1 [3] =
    Ok ([mkI CMuladd (mkN Ntmp 0 None 0 false 0) [mkN Neval 0 None 0 false 0; mkN Neval 1 None 0 false 0; mkN Nnumber 0 (Some 3%Z) 0 false 0]],
        mkEV [((true, false, 3), 2); ((true, false, 1), 1); ((true, true, 2), 0)] [(true, true, 2); (true, false, 1); (true, false, 3)])) by (vm_compute; reflexivity).
  cbv zeta. rewrite E. split; [reflexivity|]. split; [reflexivity|]. split; [vm_compute; reflexivity|].
  split; [|split; vm_compute; reflexivity].
  constructor.
  - vm_compute. reflexivity.
  - intros [|[|[|i]]] k H; cbn [ev_map nth_error] in H; try (injection H as <-; reflexivity). now destruct i.
  - intros [|[|[|j]]] v H; cbn in H; try (injection H as <-; reflexivity). now destruct j.
  - intros c r [<-|[]] Hr. cbn [i_src In] in Hr. destruct Hr as [<-|[<-|[<-|[]]]]; cbn [n_ty]; [cbn; lia | cbn; lia | vm_compute; reflexivity].
Qed.
