(* A circom circuit as the constraint system of a prover. *)
From Verif Require Import Base SynthModel SynthProof.
From Coq Require Import Lia.
Open Scope nat_scope.
Open Scope list_scope.
Open Scope res_scope.

(* C93: the constraint system a prover is given holds exactly if the R1CS holds of the wires, of which wire zero is the
   one (whatever the witness says), over every ring, for every circuit, witness, map and number of earlier variables. *)
Theorem C93_satisfied_iff : forall (F : Type) (zero one : F) (add mul : F -> F -> F), (forall x, mul zero x = zero) -> (forall x, mul x zero = zero) ->
  forall (c : circuit F) auxs t (a : nat -> F), let n := num_inputs (c_r1cs c) in
  1 <= n -> length auxs = c_offset c ->
  (forall x y z, In (x, y, z) (constraints (c_r1cs c)) -> Forall (fun k => fst k < n + num_aux (c_r1cs c)) (x ++ y ++ z)) ->
  synthesize true c (mkCs [Some one] auxs []) = Ok t -> a 0 = one -> (forall i, 1 <= i < n + num_aux (c_r1cs c) -> wire c i = Ok (a i)) ->
  cs_sat zero add mul t <-> forall x y z, In (x, y, z) (constraints (c_r1cs c)) -> mul (lcv zero add mul a x) (lcv zero add mul a y) = lcv zero add mul a z.
Proof. exact @synth_sat. Qed.
Print Assumptions C93_satisfied_iff.
(* a setup always ends, and sees the constraints and the numbers of variables that every prover of the circuit has *)
Theorem C93_setup : forall (F : Type) (c : circuit F) s, exists t, synthesize false c s = Ok t /\ forall c' s' t', c_r1cs c = c_r1cs c' -> c_offset c = c_offset c' ->
  cs_cons s = cs_cons s' -> synthesize true c' s' = Ok t' -> cs_cons t = cs_cons t' /\
  length (cs_in t) - length (cs_in s) = length (cs_in t') - length (cs_in s') /\ length (cs_aux t) - length (cs_aux s) = length (cs_aux t') - length (cs_aux s').
Proof. exact @setup_same. Qed.
Print Assumptions C93_setup.
(* a prover ends exactly if every wire but the first has a value; without a witness it panics *)
Theorem C93_prover : forall (F : Type) (c : circuit F) s, 1 <= num_inputs (c_r1cs c) ->
  ((exists t, synthesize true c s = Ok t) <-> forall i, 1 <= i < num_inputs (c_r1cs c) + num_aux (c_r1cs c) -> exists v, wire c i = Ok v) /\
  (c_witness c = None -> 2 <= num_inputs (c_r1cs c) + num_aux (c_r1cs c) -> synthesize true c s = Panic).
Proof. exact @prover_cases. Qed.
Print Assumptions C93_prover.
(* what get_public_inputs hands to the verifier are the input variables of the prover, in their order *)
Theorem C93_public_inputs : forall (F : Type) (c : circuit F) s t w, c_witness c = Some w -> 1 <= num_inputs (c_r1cs c) ->
  num_inputs (c_r1cs c) <= match c_map c with Some m => length m | None => length w end -> synthesize true c s = Ok t ->
  exists v, get_public_inputs c = Ok (Some v) /\ cs_in t = cs_in s ++ map Some v.
Proof. exact @public_same. Qed.
Print Assumptions C93_public_inputs.

(* x * y = z with z public, after two variables of somebody else *)
Example C93_nonvacuous : let k := (([(2, 1)], [(3, 1)], [(1, 1)]) : constraint nat) in
  let c w := mkCirc (mkR1 2 2 [k; ([(0, 1)], [], [])]) (Some w) (Some [0; 2; 3; 1]) 2 in
  let start := mkCs [Some 1] [Some 9; Some 9] [] in
  synthesize true (c [7; 5; 15; 3]) start = Ok (mkCs [Some 1; Some 15] [Some 9; Some 9; Some 3; Some 5] [([(1, Aux 2)], [(1, Aux 3)], [(1, Input 1)])]) /\
  get_public_inputs (c [7; 5; 15; 3]) = Ok (Some [15]) /\ synthesize true (c [7; 5; 15]) start = Panic /\
  synthesize false (c []) start = Ok (mkCs [Some 1; None] [Some 9; Some 9; None; None] [([(1, Aux 2)], [(1, Aux 3)], [(1, Input 1)])]) /\
  (forall i, 1 <= i < 4 -> wire (c [7; 5; 15; 3]) i = Ok (nth i [1; 15; 3; 5] 0)).
Proof.
  split; [vm_compute; reflexivity|]. split; [vm_compute; reflexivity|]. split; [vm_compute; reflexivity|]. split; [vm_compute; reflexivity|].
  intros i Hi. destruct i as [|[|[|[|i]]]]; [lia|reflexivity..|lia].
Qed.
