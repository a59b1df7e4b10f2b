(* C37, C38, C39, C52, C55-C58: the twelve column compressor built from a PLONK circuit.
   A cell is a pair (column, row). [sig d smap x] is the signal the map puts in cell x, zero in the rows
   the map does not have; [used_cell r x] says column < 12 and row < r; [label n c i] is
   w^i * k^c with w the root of unity of order 2^n and k the coset generator, the value the
   permutation argument gives to cell (c, i).
   [slot t q s] is the gate read off columns 3s..3s+2 of row q and its constants;
   [pairs (uses gs)] is the sum over the distinct coefficient vectors of gs of half the number of
   gates with these coefficients, rounded up; [str_key g] is the coefficient vector.
   [order] is any order of the entries of the map of unfinished rows. *)
From Verif Require Import Base GlModel FrField Cubic PolyModel Roots ListAux PlonkModel PlonkProof CompressorModel CompressorPil ConnectProof PlaceProof BudgetProof SetupProof EndProof PilProof CustomProof.
From Coq Require Import Permutation.
Open Scope nat_scope.
Open Scope res_scope.

(* the S polynomials are the labels permuted by a bijection f of the cells; cells without a signal are
   fixed; and values are invariant under f iff cells with equal non-zero signals have equal values *)
Theorem C37_copy_permutation : forall d smap n r ks,
  n_rows d = 2 ^ n -> n_used d <= n_rows d -> r <= n_rows d -> n <= 32 -> get_ks 11 = Ok ks ->
  exists s f g, connect d smap r (init_s (n_rows d) 0 f1 (root n) ks (fun _ _ => f0)) = Ok s /\
    (forall x, fst x < 12 /\ snd x < 2 ^ n -> fst (f x) < 12 /\ snd (f x) < 2 ^ n) /\
    (forall c i, c < 12 -> i < 2 ^ n -> s c i = label n (fst (f (c, i))) (snd (f (c, i)))) /\
    (forall x, f (g x) = x) /\ (forall x, g (f x) = x) /\
    (forall x, ~ used_cell r x \/ sig d smap x = 0 -> f x = x) /\
    (forall V (v : cell -> V),
       (forall x, v (f x) = v x) <->
       (forall x y, used_cell r x -> used_cell r y -> sig d smap x = sig d smap y -> sig d smap x <> 0 -> v x = v y)).
Proof. exact connect_ok. Qed.
Print Assumptions C37_copy_permutation.

(* different cells have different labels, so S determines the permutation *)
Theorem C37_labels_distinct : forall n c c' i i',
  n <= 32 -> c < 12 -> c' < 12 -> i < 2 ^ n -> i' < 2 ^ n -> label n c i = label n c' i' -> c = c' /\ i = i'.
Proof. exact label_inj. Qed.
Print Assumptions C37_labels_distinct.

(* three cells with signal 5 form one cycle, the cell with signal 6 is fixed *)
Example C37_nonvacuous :
  let smap := fun c r => if (c =? 0) && (r =? 0) then 5 else if (c =? 3) && (r =? 0) then 6 else if (c =? 1) && (r =? 1) then 5 else if (c =? 2) && (r =? 1) then 5 else 0 in
  (do ks <- get_ks 11; do s <- connect (mkD 2 2) smap 2 (init_s 2 0 f1 (root 1) ks (fun _ _ => f0));
   Ok (map (fun x => Z.eqb (fint (s (fst (fst x)) (snd (fst x)))) (fint (label 1 (fst (snd x)) (snd (snd x)))))
         [((0, 0), (2, 1)); ((1, 1), (0, 0)); ((2, 1), (1, 1)); ((3, 0), (3, 0)); ((0, 1), (0, 1))])) = Ok [true; true; true; true; true].
Proof. vm_compute. reflexivity. Qed.

(* pairs(uses gs) rows are enough for every list of gates and every order *)
Theorem C38_pairs_of_rows_suffice : forall order, (forall l, Permutation (order l) l) -> forall d gs t0 r0,
  r0 + pairs (uses gs) <= n_used d -> r0 + pairs (uses gs) <= n_rows d ->
  exists t r, place_gates order d gs t0 r0 = Ok (t, r) /\ r <= r0 + pairs (uses gs).
Proof. exact place_total. Qed.
Print Assumptions C38_pairs_of_rows_suffice.

(* the code reserves half of that *)
Theorem C38_reserved_rows : forall gs, gs <> [] -> plonk_info gs = Ok ((pairs (uses gs) - 1) / 2 + 1).
Proof. exact reserved_rows. Qed.
Print Assumptions C38_reserved_rows.

(* and that is not enough: for any two or more gates with different coefficients the placement panics *)
Theorem C38_reserved_rows_suffice_refuted : forall order d gs t0 r0,
  NoDup (map str_key gs) -> 2 <= length gs ->
  exists n, plonk_info gs = Ok n /\ n < length gs /\ (n_used d = r0 + n -> place_gates order d gs t0 r0 = Panic).
Proof. exact budget_refuted. Qed.
Print Assumptions C38_reserved_rows_suffice_refuted.

Example C38_nonvacuous :
  let g a b := mkGate a b 0 f0 f1 f1 f0 f0 in let h a b := mkGate a b 0 f1 f0 f0 f0 f0 in
  let gs := [g 1 2; h 3 4; g 5 6; g 7 8] in
  pairs (uses gs) = 3 /\ plonk_info gs = Ok 2 /\
  rmap snd (place_gates (fun l => l) (mkD 4 4) gs (mkT (fun _ _ => 0) (fun _ _ => f0) (fun _ _ => f0)) 1) = Ok 3 /\
  NoDup (map str_key [g 1 2; h 3 4]).
Proof. cbv zeta. do 3 (split; [vm_compute; reflexivity|]). repeat constructor; cbn [In map]; [intros [H|[]]|intros []]. revert H. vm_compute. discriminate. Qed.

(* the circuit declares n_in public inputs and n_out public outputs, signals 1 .. n_out + n_in; the
   compressor has n_in + 2 n_out publics *)
Theorem C39_number_of_publics : forall c fb s n_in n_out n_wires cs,
  base c = load_r1cs n_in n_out n_wires cs -> plonk_setup_render c fb = Ok s -> su_publics s = n_in + 2 * n_out.
Proof. exact publics_count. Qed.
Print Assumptions C39_number_of_publics.

(* a circuit with a public output: a private signal becomes public *)
Theorem C39_exact_publics_refuted : exists c s t sp r,
  base c = load_r1cs 1 1 5 [([(1, f1)], [(2, f1)], [(3, f1)])] /\
  plonk_setup_render c 0 = Ok s /\ plonk_setup_compressor (fun l => l) [] c s = Ok (t, sp, r) /\
  su_publics s = 3 /\ sm t 2 0 = 3.
Proof. exact publics_refuted. Qed.
Print Assumptions C39_exact_publics_refuted.

(* when the two identifiers differ, the rows reserved are the rows used *)
Theorem C52_custom_rows_counted : forall cp gi d us, poseidon_id gi <> c_mul_add_id gi ->
  forall t r t' r', foldM (put_custom cp gi d) us (t, r) = Ok (t', r') -> custom_rows gi us = Ok (r' - r) /\ r <= r'.
Proof. exact custom_count. Qed.
Print Assumptions C52_custom_rows_counted.

(* a circuit that declares Poseidon12 only: one row is reserved per use, 31 are needed, and the
   placement cannot succeed in the reserved space *)
Theorem C52_poseidon_only_refuted : forall cp sg d t r, length sg = 372 ->
  gate_ids 0 [mkCG TPoseidon12 []] (mkGI 0 0 [] 0) = Ok (mkGI 0 0 [] 0) /\
  custom_rows (mkGI 0 0 [] 0) [mkCU 0 sg] = Ok 1 /\
  (forall t' r', put_custom cp (mkGI 0 0 [] 0) d (t, r) (mkCU 0 sg) = Ok (t', r') -> r' = r + 31) /\
  (n_used d = r + 1 -> forall x, put_custom cp (mkGI 0 0 [] 0) d (t, r) (mkCU 0 sg) <> Ok x).
Proof. exact count_refuted. Qed.
Print Assumptions C52_poseidon_only_refuted.

Example C52_nonvacuous :
  let gi := mkGI 0 1 [] 2 in let us := [mkCU 1 (seq 1 12); mkCU 2 (seq 1 21)] in
  custom_rows gi us = Ok 3 /\
  rmap snd (foldM (put_custom [] gi (mkD 5 8)) us (mkT (fun _ _ => 0) (fun _ _ => f0) (fun _ _ => f0), 2)) = Ok 5.
Proof. split; vm_compute; reflexivity. Qed.

(* [only l u k]: entry k is the only declaration of template u *)
Theorem C55_use_gets_its_template : forall l gi kp kc ke,
  gate_ids 0 l (mkGI 0 0 [] 0) = Ok gi -> only l TPoseidon12 kp -> only l TCMulAdd kc -> only l TEvPol4 ke ->
  forall cp d t r u g, nth_error l (cg_id u) = Some g ->
  put_custom cp gi d (t, r) u = match template_name g with
    | TPoseidon12 => do t' <- put_poseidon cp d r (signals u) t; Ok (t', r + 31)
    | TCMulAdd => do t' <- put_cmuladd d r (signals u) t; Ok (t', r + 1)
    | TFFT4 => do t' <- put_fft d r (parameters g) (signals u) t; Ok (t', r + 2)
    | TEvPol4 => do t' <- put_evpol d r (signals u) t; Ok (t', r + 2)
    | TOther => Panic
    end.
Proof. exact dispatch. Qed.
Print Assumptions C55_use_gets_its_template.

(* a template that is not declared gets identifier 0, that of the first declaration *)
Theorem C55_undeclared_template_refuted : forall cp ps d t r sg, exists gi,
  gate_ids 0 [mkCG TFFT4 ps; mkCG TPoseidon12 []] (mkGI 0 0 [] 0) = Ok gi /\
  put_custom cp gi d (t, r) (mkCU 0 sg) = (do t' <- put_cmuladd d r sg t; Ok (t', r + 1)).
Proof. exact dispatch_refuted. Qed.
Print Assumptions C55_undeclared_template_refuted.

Example C55_nonvacuous :
  let l := [mkCG TEvPol4 []; mkCG TFFT4 [f1]; mkCG TCMulAdd []; mkCG TPoseidon12 []] in
  gate_ids 0 l (mkGI 0 0 [] 0) = Ok (mkGI 3 2 [(1, [f1])] 0) /\ only l TPoseidon12 3 /\ only l TCMulAdd 2 /\ only l TEvPol4 0.
Proof.
  split; [reflexivity|]. repeat split; try (eexists; reflexivity);
    intros [|[|[|[|j]]]] c H T; cbn in H; try (injection H as <-; cbn in T; try discriminate T; reflexivity); destruct j; discriminate H.
Qed.

(* placement: rows outside the range it reports are untouched; inside only GATE is set; each slot holds
   one of the gates or the empty gate; each gate is in some slot *)
Theorem C56_placement_faithful : forall order, (forall l, Permutation (order l) l) -> forall d gs t0 r0 t r,
  place_gates order d gs t0 r0 = Ok (t, r) ->
  r0 <= r /\
  (forall q, ~ (r0 <= q < r) -> (forall c, sm t c q = sm t0 c q) /\ (forall c, cm t c q = cm t0 c q) /\ (forall n, sel t n q = sel t0 n q)) /\
  (forall q, r0 <= q < r -> forall n, sel t n q = match n with GATE => f1 | _ => f0 end) /\
  (forall q s, r0 <= q < r -> s < 4 -> In (slot t q s) gs \/ slot t q s = empty_gate) /\
  (forall g, In g gs -> exists q s, r0 <= q < r /\ s < 4 /\ slot t q s = g).
Proof. exact place_gates_ok. Qed.
Print Assumptions C56_placement_faithful.

Example C56_nonvacuous :
  let g a b := mkGate a b 0 f0 f1 f1 f0 f0 in let h a b := mkGate a b 0 f1 f0 f0 f0 f0 in
  (do x <- place_gates (fun l => l) (mkD 4 4) [g 1 2; h 3 4; g 5 6; g 7 8] (mkT (fun _ _ => 0) (fun _ _ => f0) (fun _ _ => f0)) 1;
   Ok (map (fun s => (g_sl (slot (fst x) 1 s), g_sr (slot (fst x) 1 s))) [0; 1; 2; 3], map (fun s => g_sl (slot (fst x) 2 s)) [0; 1; 2; 3])) =
  Ok ([(1, 2); (5, 6); (7, 8); (7, 8)], [3; 3; 0; 0]).
Proof. vm_compute. reflexivity. Qed.

(* the custom gates: signals, selectors, and the meaning of the PIL identities on the rows written.
   [tup a j] is the element a(j) + a(j+1) X + a(j+2) X^2 of the cubic extension *)
Theorem C57_cmuladd : forall d r sg t t', put_cmuladd d r sg t = Ok t' -> r < n_used d ->
  (forall j, j < 12 -> nth_error sg j = Some (sm t' j r)) /\
  (forall n, sel t' n r = match n with CMULADD => f1 | _ => f0 end) /\
  (forall a, zeros (pil_cmuladd (sel t' CMULADD r) (fun c => cm t' c r) a) <-> tup a 9 = kadd (kmul (tup a 0) (tup a 3)) (tup a 6)).
Proof. exact put_cmuladd_ok. Qed.
Print Assumptions C57_cmuladd.

Theorem C57_evpol4 : forall d r sg t t', put_evpol d r sg t = Ok t' ->
  (forall j, j < 12 -> nth_error sg j = Some (sm t' j r)) /\ (forall j, j < 9 -> nth_error sg (12 + j) = Some (sm t' j (r + 1))) /\
  (forall n, sel t' n r = match n with EVPOL4 => f1 | _ => f0 end) /\ (forall n, sel t' n (r + 1) = f0) /\
  (forall a a', zeros (pil_evpol (sel t' EVPOL4 r) a a') <-> tup a' 6 = horner4 (tup a 0) (tup a 3) (tup a 6) (tup a 9) (tup a' 0) (tup a' 3)).
Proof. exact put_evpol_ok. Qed.
Print Assumptions C57_evpol4.

(* type 4: the outputs are s * P(w i^k), k < 4, for P with coefficients in bit-reversed order;
   type 2: two butterflies *)
Theorem C57_fft4 : forall d r w i s ty rest sg t t', put_fft d r (w :: i :: s :: ty :: rest) sg t = Ok t' ->
  (forall j, j < 12 -> nth_error sg j = Some (sm t' j r) /\ nth_error sg (12 + j) = Some (sm t' j (r + 1))) /\
  (forall n, sel t' n r = match n with FFT4 => f1 | _ => f0 end) /\ (forall n, sel t' n (r + 1) = f0) /\
  ((fint ty = 4%Z /\ (fmul i i = fneg f1 -> forall a a', zeros (pil_fft4 (sel t' FFT4 r) (fun c => cm t' c r) a a') <->
      forall k, k < 4 -> tup a' (3 * k) = let y := fmul w (fpow i k) in
        kscale s (kadd (kadd (tup a 0) (kscale y (tup a 6))) (kadd (kscale (fpow y 2) (tup a 3)) (kscale (fpow y 3) (tup a 9)))))) \/
   (fint ty = 2%Z /\ (forall a a', zeros (pil_fft4 (sel t' FFT4 r) (fun c => cm t' c r) a a') <->
      tup a' 0 = kscale s (kadd (tup a 0) (kscale w (tup a 3))) /\ tup a' 3 = kscale s (ksub (tup a 0) (kscale w (tup a 3))) /\
      tup a' 6 = kscale s (kadd (tup a 6) (kscale (fmul w i) (tup a 9))) /\ tup a' 9 = kscale s (ksub (tup a 6) (kscale (fmul w i) (tup a 9)))))).
Proof. exact put_fft_ok. Qed.
Print Assumptions C57_fft4.

(* Poseidon12: the 31 rows are the input and the states after each of the 30 rounds *)
Theorem C57_poseidon12 : forall cp d r sg t t', put_poseidon cp d r sg t = Ok t' ->
  length sg = 372 /\
  (forall j k, j < 31 -> k < 12 -> nth_error sg (12 * j + k) = Some (sm t' k (r + j))) /\
  (forall j, j < 31 -> sel t' GATE (r + j) = f0 /\ sel t' CMULADD (r + j) = f0 /\ sel t' EVPOL4 (r + j) = f0 /\ sel t' FFT4 (r + j) = f0) /\
  sel t' POSEIDON12 (r + 30) = f0 /\
  (forall a : grid Fr,
    (forall j, j < 30 -> zeros (pil_poseidon (sel t' POSEIDON12 (r + j)) (sel t' PARTIAL (r + j)) (fun c => cm t' c (r + j)) (fun c => a c (r + j)) (fun c => a c (r + j + 1)))) <->
    (forall j, j <= 30 -> row12 (fun c => a c (r + j)) = rounds cp 0 j (row12 (fun c => a c r)))).
Proof. exact put_poseidon_ok. Qed.
Print Assumptions C57_poseidon12.

Example C57_nonvacuous :
  let t := mkT (fun _ _ => 0) (fun _ _ => f0) (fun _ _ => f0) in let d := mkD 40 64 in
  is_ok (put_cmuladd d 3 (seq 1 12) t) = true /\ is_ok (put_evpol d 3 (seq 1 21) t) = true /\
  is_ok (put_fft d 3 [f1; root 2; f1; fof 4] (seq 1 24) t) = true /\ fint (fmul (root 2) (root 2)) = fint (fneg f1) /\
  is_ok (put_fft d 3 [f1; root 2; f1; fof 2] (seq 1 24) t) = true /\
  is_ok (put_poseidon (repeat 7%Z 372) d 3 (seq 1 372) t) = true.
Proof. cbv zeta. do 5 (split; [vm_compute; reflexivity|]). vm_compute. reflexivity. Qed.

(* The whole setup of a circuit in which no constraint has a constant side. A filling of the table
   that satisfies the gate identities on every row and is invariant under the permutation encoded
   in S yields a satisfying assignment of the circuit that agrees with the table on every cell carrying
   a circuit signal, in particular on the publics; conversely every satisfying assignment fills the
   table. *)
Theorem C58_compressor_sound_and_complete : forall order, (forall l, Permutation (order l) l) -> forall cposeidon c fb s t sp r,
  1 <= num_variables (base c) -> Forall (wf_constraint (num_variables (base c))) (constraints (base c)) ->
  Forall (fun k => ~ const_side k) (constraints (base c)) ->
  plonk_setup_render c fb = Ok s -> plonk_setup_compressor order cposeidon c s = Ok (t, sp, r) ->
  su_bits s <= 32 -> n_used (su_dims s) <= n_rows (su_dims s) ->
  exists f g,
    (forall x, f (g x) = x) /\ (forall x, g (f x) = x) /\
    (forall col i, col < 12 -> i < 2 ^ su_bits s -> sp col i = label (su_bits s) (fst (f (col, i))) (snd (f (col, i)))) /\
    (forall i, i < su_publics s -> sm t (i mod 12) (i / 12) = 1 + i) /\
    (forall a : grid Fr,
       (forall q, q < 2 ^ su_bits s -> Forall (fun v => v = f0) (pil_gate (sel t GATE q) (fun k => cm t k q) (fun k => a k q))) ->
       (forall x, a (fst (f x)) (snd (f x)) = a (fst x) (snd x)) ->
       exists w, length w = num_variables (base c) /\ wire w 0 = f1 /\ Forall (r1cs_ok (wire w)) (constraints (base c)) /\
         (forall col i, col < 12 -> i < r -> i < n_used (su_dims s) -> sm t col i <> 0 -> sm t col i < num_variables (base c) -> a col i = wire w (sm t col i))) /\
    (forall w, length w = num_variables (base c) -> wire w 0 = f1 -> Forall (r1cs_ok (wire w)) (constraints (base c)) ->
       let a := table_of t (su_dims s) (wire (ext w (su_adds s))) in
       (forall q, q < 2 ^ su_bits s -> Forall (fun v => v = f0) (pil_gate (sel t GATE q) (fun k => cm t k q) (fun k => a k q))) /\
       (forall x, a (fst (f x)) (snd (f x)) = a (fst x) (snd x))).
Proof. exact compressor_ok. Qed.
Print Assumptions C58_compressor_sound_and_complete.

Example C58_nonvacuous :
  let r := mkR1CS 2 4 0 [([(1, f1)], [(2, f1)], [(3, f1)])] in
  let c := mkCircuit r [] [] in
  Forall (wf_constraint 4) (constraints r) /\ Forall (fun k => ~ const_side k) (constraints r) /\
  (do s <- plonk_setup_render c 0; do x <- plonk_setup_compressor (fun l => l) [] c s; Ok (su_publics s, su_bits s, n_used (su_dims s), n_rows (su_dims s), snd x)) = Ok (1, 1, 2, 2, 2) /\
  Forall (r1cs_ok (wire [f1; fof 3; fof 5; fof 15])) (constraints r).
Proof.
  split; [repeat constructor; cbn; try lia; try (intros H; intuition discriminate)|]. split; [|split; [vm_compute; reflexivity|]].
  - repeat constructor. intros [[O _]|[O _]]; inversion O as [|? ? [D|D] _]; cbn in D; try discriminate; revert D; apply fint_neq; vm_compute; reflexivity.
  - constructor; [|constructor]. unfold r1cs_ok. apply fint_inj. vm_compute. reflexivity.
Qed.
