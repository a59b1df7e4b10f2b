(* C35, C36: R1CS to PLONK, and the compressor's execution file.
   [lceval W lc] is the sum of coefficient * W(index); [r1cs_ok W (A,B,C)] is A*B = C under W;
   [gate_ok W g] is qm*a*b + ql*a + qr*b + qo*c + qc = 0 with a,b,c the wires of g under W;
   [wire w i] is the i-th entry of the vector w, wire 0 being the constant one;
   [ext w pa] appends, for each addition in turn, the value it defines. *)
From Verif Require Import Base GlModel FrField PlonkModel PlonkProof ExecProof.
Open Scope nat_scope.

(* A system is well formed when every linear combination has distinct indices below the number of
   variables. [const_side c]: one of A, B has only a constant term, which is not zero, while the other
   is not identically zero. Without such constraints the gates are equivalent to the circuit: the
   extension of an assignment satisfies the gates iff the assignment satisfies the circuit, and every
   vector satisfying the gates is the extension of an assignment satisfying the circuit. *)
Theorem C35_equivalent_without_constant_sides : forall r,
  1 <= num_variables r -> Forall (wf_constraint (num_variables r)) (constraints r) ->
  Forall (fun c => ~ const_side c) (constraints r) ->
  exists pc pa, r1cs2plonk r = Ok (pc, pa) /\
    (forall w, length w = num_variables r -> wire w 0 = f1 ->
       (Forall (gate_ok (wire (ext w pa))) pc <-> Forall (r1cs_ok (wire w)) (constraints r))) /\
    (forall w', length w' = num_variables r + length pa -> wire w' 0 = f1 -> Forall (gate_ok (wire w')) pc ->
       w' = ext (firstn (num_variables r) w') pa /\ Forall (r1cs_ok (wire (firstn (num_variables r) w'))) (constraints r)).
Proof. exact plonk_equiv. Qed.
Print Assumptions C35_equivalent_without_constant_sides.

(* in general the gates demand A*B = -C instead of A*B = C for the constraints with a constant side *)
Theorem C35_exact_meaning : forall r,
  1 <= num_variables r -> Forall (wf_constraint (num_variables r)) (constraints r) ->
  exists pc pa, r1cs2plonk r = Ok (pc, pa) /\
    (forall w, length w = num_variables r -> wire w 0 = f1 ->
       (Forall (gate_ok (wire (ext w pa))) pc <-> Forall (plonk_sem (wire w)) (constraints r))) /\
    (forall w', length w' = num_variables r + length pa -> wire w' 0 = f1 -> Forall (gate_ok (wire w')) pc ->
       w' = ext (firstn (num_variables r) w') pa).
Proof. exact plonk_exact. Qed.
Print Assumptions C35_exact_meaning.

(* the circuit 2 * x = y: the witness x = 3, y = 6 is rejected and x = 3, y = -6 is accepted *)
Theorem C35_constant_side_sign_refuted :
  exists pc pa, r1cs2plonk sign_case = Ok (pc, pa) /\
    Forall (r1cs_ok (wire [f1; fof 3; fof 6])) (constraints sign_case) /\
    ~ Forall (gate_ok (wire (ext [f1; fof 3; fof 6] pa))) pc /\
    ~ Forall (r1cs_ok (wire [f1; fof 3; fneg (fof 6)])) (constraints sign_case) /\
    Forall (gate_ok (wire (ext [f1; fof 3; fneg (fof 6)] pa))) pc.
Proof. exact sign_bug. Qed.
Print Assumptions C35_constant_side_sign_refuted.

(* a linear combination mentioning the same index twice is refused *)
Theorem C35_repeated_index_refused : forall r pre c post,
  constraints r = pre ++ c :: post -> 1 <= num_variables r ->
  Forall (wf_constraint (num_variables r)) pre ->
  (let '(a, b, cc) := c in ~ NoDup (map fst a) \/ ~ NoDup (map fst b) \/ ~ NoDup (map fst cc)) ->
  r1cs2plonk r = Panic.
Proof. exact plonk_dup. Qed.
Print Assumptions C35_repeated_index_refused.

Example C35_nonvacuous :
  let r := mkR1CS 1 4 0 [([(1, f1); (2, f1)], [(3, f1); (0, f1)], [(2, fof 5)])] in
  Forall (wf_constraint 4) (constraints r) /\ Forall (fun c => ~ const_side c) (constraints r) /\
  rmap (fun x => (length (fst x), length (snd x))) (r1cs2plonk r) = Ok (2, 1).
Proof.
  split; [repeat constructor; cbn; try lia; try (intros H; intuition discriminate)|]. split; [|vm_compute; reflexivity].
  repeat constructor. intros [[O _]|[O _]]; inversion O as [|? ? [D|D] _]; cbn in D; try discriminate; revert D; apply fint_neq; vm_compute; reflexivity.
Qed.

(* Writing the additions and the 12-row signal map, reading the file back and running it on a witness:
   cell (c, i) receives the signal the map names, out of the witness extended by the additions *)
Theorem C36_exec_file : forall adds s_map cols N w,
  length s_map = 12 -> Forall (fun r => length r = cols) s_map -> adds_in (length w) adds -> cols <= N ->
  (forall row s, In row s_map -> In s row -> (0 <= s < Z.of_nat (length w + length adds))%Z) ->
  exists file rows, write_exec adds s_map = Ok file /\ exec_witness file N w = Ok rows /\ length rows = N /\
    (forall i c, i < cols -> c < 12 -> nth c (nth i rows []) f0 = signal (ext w adds) (cell s_map c i)) /\
    (forall i c, cols <= i < N -> c < 12 -> nth c (nth i rows []) f1 = f0).
Proof. exact exec_file_ok. Qed.
Print Assumptions C36_exec_file.

(* the additions r1cs2plonk hands to the file are always executable, and the extended witness
   satisfies the gates exactly when the witness satisfies the circuit *)
Theorem C36_additions_executable : forall r,
  1 <= num_variables r -> Forall (wf_constraint (num_variables r)) (constraints r) ->
  exists pc pa, r1cs2plonk r = Ok (pc, pa) /\
    forall w, length w = num_variables r ->
      adds_in (length w) pa /\ exec_adds (length pa) (flat_adds pa) w = Ok (ext w pa).
Proof. exact additions_run. Qed.
Print Assumptions C36_additions_executable.

Example C36_nonvacuous :
  let adds := [mkAdd 1 2 (fof 3) (fof 5)] in
  let sm := repeat [0; 2; 3]%Z 12 in
  adds_in 3 adds /\
  (do f <- write_exec adds sm; do r <- exec_witness f 4 [f1; fof 10; fof 100]; Ok (map (map fint) r)) =
  Ok [repeat 0%Z 12; repeat 100%Z 12; repeat 530%Z 12; repeat 0%Z 12].
Proof. split; [cbn; lia|vm_compute; reflexivity]. Qed.
