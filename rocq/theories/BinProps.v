(* Properties C40, C41 and C42. *)
From Verif Require Import Base BinModel BinProof WtnsProof R1csProof.
Open Scope Z_scope.
Open Scope res_scope.

(* The words handed to the writer are read back as the values the calculator computes from the same
   words, and refused when one of these is not below the modulus. The file is the circuit's prime,
   with sizes up to the number of elements a u32 can count. *)
Theorem C40_roundtrip_partial : forall oc q version k w, 0 <= version <= 2 -> Forall isword w -> length w = (8 * k)%nat ->
  Z.of_nat k < (if oc : bool then 2 ^ 27 else 2 ^ 29) ->
  exists file vs, save_witness oc 8 version bn_prime w = Ok file /\ witness_values 8 k w = Ok vs /\
    load_witness oc q file = if forallb (fun v => v <? q) vs then Ok vs else Err.
Proof. exact roundtrip. Qed.
Print Assumptions C40_roundtrip_partial.
Example C40_nonvacuous_roundtrip :
  rmap (fun f => length f) (save_witness true 8 2 bn_prime (le_words 8 7 ++ le_words 8 (bn_prime - 1))) = Ok 140%nat /\
  (do f <- save_witness true 8 2 bn_prime (le_words 8 7 ++ le_words 8 (bn_prime - 1)); load_witness true bn_prime f) = Ok [7; bn_prime - 1] /\
  (do f <- save_witness true 8 2 bn_prime (le_words 8 7 ++ le_words 8 bn_prime); load_witness true bn_prime f) = Err.
Proof. split; [vm_compute; reflexivity|]. split; vm_compute; reflexivity. Qed.

(* every list of field elements can be written as words, and comes back unchanged *)
Theorem C40_elements_partial : forall oc q version vs, 0 <= version <= 2 -> q <= 2 ^ 256 ->
  Forall (fun v => 0 <= v < q) vs -> Z.of_nat (length vs) < (if oc : bool then 2 ^ 27 else 2 ^ 29) ->
  (do file <- save_witness oc 8 version bn_prime (concat (map (le_words 8) vs)); load_witness oc q file) = Ok vs.
Proof. exact elements_roundtrip. Qed.
Print Assumptions C40_elements_partial.
Example C40_nonvacuous_elements : Forall (fun v => 0 <= v < bn_prime) [3; bn_prime - 1].
Proof. repeat constructor; vm_compute; congruence. Qed.

(* The reader accepts exactly the byte strings that begin with a well-formed file, and returns the
   elements encoded in it. *)
Theorem C40_accepts : forall oc q l vs, Forall isbyte l -> q <= 2 ^ 256 ->
  load_witness oc q l = Ok vs <->
  exists v r, 0 <= v <= 2 /\ Z.of_nat (length vs) < 2 ^ 32 /\ (oc = true -> Z.of_nat (length vs) < 2 ^ 27)
    /\ Forall (fun x => 0 <= x < q) vs /\ l = wtns_file v (Z.of_nat (length vs)) (concat (map (le_bytes 32) vs) ++ r).
Proof. exact load_iff. Qed.
Print Assumptions C40_accepts.
Example C40_nonvacuous_accepts : Forall isbyte (wtns_file 1 2 (concat (map (le_bytes 32) [3; 4]) ++ [99])) /\
  load_witness false bn_prime (wtns_file 1 2 (concat (map (le_bytes 32) [3; 4]) ++ [99])) = Ok [3; 4].
Proof. split; [apply wtns_bytes_example|vm_compute; reflexivity]. Qed.

(* every other byte string is refused with an error; a checked build panics on a claimed number of
   elements of 2^27 or more *)
Theorem C40_refuses : forall oc q l, (exists vs, load_witness oc q l = Ok vs) \/ load_witness oc q l = Err
  \/ (oc = true /\ load_witness oc q l = Panic).
Proof. exact load_cases. Qed.
Print Assumptions C40_refuses.
Example C40_nonvacuous_refuses : load_witness false bn_prime [119; 116; 110; 115; 3; 0; 0; 0] = Err /\
  load_witness true bn_prime (wtns_file 2 (2 ^ 27) []) = Panic.
Proof. split; vm_compute; reflexivity. Qed.

(* files of circuits over another prime, or of an unknown version, are refused *)
Theorem C40_foreign : forall oc q n32 version prime w file, 0 <= n32 < 2 ^ 27 -> 0 <= version < 2 ^ 32 -> prime < 256 ^ (n32 * 4) ->
  Forall isword w -> save_witness oc n32 version prime w = Ok file -> (prime <> bn_prime \/ 2 < version) ->
  load_witness oc q file = Err.
Proof. exact save_other_refused. Qed.
Print Assumptions C40_foreign.
Example C40_nonvacuous_foreign :
  rmap (fun f => length f) (save_witness true 2 2 gl_prime [1; 2; 3; 4]) = Ok 68%nat.
Proof. vm_compute. reflexivity. Qed.

(* the writer counts the words in 32 bits: 2^29 elements are read back as none *)
Theorem C40_large_refuted : forall oc q version, 0 <= version <= 2 ->
  exists vs file, Z.of_nat (length vs) = 2 ^ 29 /\ Forall (fun v => v = 0) vs /\
    save_witness oc 8 version bn_prime (concat (map (le_words 8) vs)) = Ok file /\ load_witness oc q file = Ok [].
Proof. exact large_lost. Qed.
Print Assumptions C40_large_refuted.
Example C40_nonvacuous_large : 0 <= 2 <= 2.
Proof. vm_compute. split; congruence. Qed.

(* the reader of algebraic-gpu agrees where the other one accepts *)
Theorem C40_gpu_partial : forall oc q l vs, q <= 2 ^ 256 -> Forall isbyte l ->
  load_witness oc q l = Ok vs -> load_witness_gpu oc q l = Ok vs.
Proof. exact gpu_agrees. Qed.
Print Assumptions C40_gpu_partial.
Example C40_nonvacuous_gpu : load_witness_gpu true bn_prime (wtns_file 1 2 (concat (map (le_bytes 32) [3; 4]) ++ [99])) = Ok [3; 4].
Proof. vm_compute. reflexivity. Qed.

(* but drops elements that are out of range or cut off, so that the later ones move up *)
Theorem C40_gpu_refuted : forall q, 5 < q -> q <= 2 ^ 256 - 1 ->
  (let file := wtns_file 2 3 (concat (map (le_bytes 32) [5; q; 4])) in
   load_witness false q file = Err /\ load_witness_gpu false q file = Ok [5; 4]) /\
  (let file := wtns_file 2 3 (le_bytes 32 5 ++ [1]) in
   load_witness false q file = Err /\ load_witness_gpu false q file = Ok [5]).
Proof. exact gpu_drops. Qed.
Print Assumptions C40_gpu_refuted.
Example C40_nonvacuous_gpu_refuted : 5 < bn_prime /\ bn_prime <= 2 ^ 256 - 1.
Proof. vm_compute. split; congruence. Qed.

(* A file with the sections of a constraint system, in any order, with any other sections and trailing
   bytes, parses to that system, the terms of each linear combination in the order of their wires. *)
Theorem C41_parse : forall q rb secs trailing h cs wm gates uses,
  (1 <= rb)%nat -> q <= 256 ^ Z.of_nat rb ->
  Z.of_nat (length (r1cs_file secs trailing)) < 2 ^ 63 -> Z.of_nat (length secs) < 2 ^ 32 ->
  Forall (fun s => 0 <= fst s < 2 ^ 32) secs ->
  R1csProof.header_ok h -> known_prime h ->
  last_section 1 secs = Some (enc_header h) ->
  last_section 2 secs = Some (concat (map (enc_constraint rb) cs)) ->
  last_section 3 secs = Some (enc_labels wm) ->
  last_section 4 secs = option_map (enc_gates rb) gates ->
  last_section 5 secs = option_map enc_uses uses ->
  Forall (constraint_ok q) cs -> n_constraints h = Z.of_nat (length cs) ->
  Forall (fun v => 0 <= v < 2 ^ 64) wm -> n_wires h = Z.of_nat (length wm) -> hd_error wm = Some 0 ->
  Forall (gate_ok q) (opt_list gates) -> Z.of_nat (length (opt_list gates)) < 2 ^ 32 ->
  Forall use_ok (opt_list uses) -> Z.of_nat (length (opt_list uses)) < 2 ^ 32 ->
  exists cs', Forall2 sorted_constraint cs cs' /\
  from_reader q (Z.of_nat rb) (field_size h) (r1cs_file secs trailing)
  = Ok (mkFile 1 (with_gates h (is_some uses && is_some gates)) cs' wm (opt_list gates) (opt_list uses)).
Proof. exact parse_file_sorted. Qed.
Print Assumptions C41_parse.
Example C41_nonvacuous_parse :
  rmap f_constraints (from_reader gl_prime 8 8 gl_file) = Ok [([(1, 6); (2, 5)], [(0, 7)], [(1, 8); (1, 9); (3, 1)])] /\
  rmap f_custom_gates (from_reader gl_prime 8 8 gl_file) = Ok [mkCG [67; 109] [11; 12]] /\
  rmap f_custom_gates_uses (from_reader gl_prime 8 8 gl_file) = Ok [mkCU 0 [1; 2 ^ 33 + 5]].
Proof. split; [vm_compute; reflexivity|]. split; vm_compute; reflexivity. Qed.

(* the order is determined, and no term is lost *)
Theorem C41_sorted : forall l r, sorted_terms l r -> (Permutation.Permutation l r /\ forall r', sorted_terms l r' -> r' = r).
Proof. exact sorted_terms_facts. Qed.
Print Assumptions C41_sorted.
Example C41_nonvacuous_sorted : sorted_terms [(2, 5); (1, 6); (2, 4)] [(1, 6); (2, 5); (2, 4)].
Proof. exact (sort_spec [(2, 5); (1, 6); (2, 4)]). Qed.

(* the numbers of inputs and variables given to the circuit *)
Theorem C41_counts : forall q rb fb oc file f, from_reader q rb fb file = Ok f ->
  1 + n_pub_in (f_header f) + n_pub_out (f_header f) < 2 ^ 32 -> 0 <= n_pub_out (f_header f) ->
  1 + n_pub_in (f_header f) + n_pub_out (f_header f) <= n_wires (f_header f) ->
  load_r1cs_from_bin q rb fb oc file
  = Ok (mkC (1 + n_pub_in (f_header f) + n_pub_out (f_header f))
            (n_wires (f_header f) - (1 + n_pub_in (f_header f) + n_pub_out (f_header f)))
            (n_wires (f_header f)) (n_pub_out (f_header f)) (f_constraints f) (f_custom_gates f) (f_custom_gates_uses f),
        f_wire_mapping f).
Proof. exact load_counts. Qed.
Print Assumptions C41_counts.
Example C41_nonvacuous_counts : rmap (fun r => (c_num_inputs (fst r), c_num_aux (fst r), snd r)) (load_r1cs_from_bin gl_prime 8 8 true gl_file)
  = Ok (2, 2, [0; 1; 2; 3]).
Proof. vm_compute. reflexivity. Qed.

(* parsing any bytes ends unless the section table lists custom gates *)
Theorem C41_terminates_partial : forall q rb, 1 <= rb -> forall fb file, from_reader q rb fb file = Hang ->
  exists m, section_table file = Ok m /\ sec_has CUSTOM_GATES_LIST m = true.
Proof. exact hang_only_gates. Qed.
Print Assumptions C41_terminates_partial.
Example C41_nonvacuous_terminates : from_reader gl_prime 8 8 cut_file = Hang.
Proof. exact cut_file_hangs. Qed.

(* a file that ends inside the name of a custom gate is never parsed to the end *)
Theorem C41_terminates_refuted : exists file, Forall isbyte file /\ from_reader gl_prime 8 8 file = Hang.
Proof. exact (ex_intro _ cut_file (conj cut_file_bytes cut_file_hangs)). Qed.
Print Assumptions C41_terminates_refuted.
Example C41_nonvacuous_cut : length cut_file = 130%nat.
Proof. vm_compute. reflexivity. Qed.

(* a system over the scalar field of bls12-381 is taken for one over that of bn254 *)
Theorem C41_prime_refuted : exists file, rmap f_constraints (from_reader bn_prime 32 32 file) = Ok bls_cs
  /\ rmap (fun f => prime_size (f_header f)) (from_reader bn_prime 32 32 file) = Ok (le_bytes 32 bls_prime).
Proof. exact (ex_intro _ bls_file bls_file_read). Qed.
Print Assumptions C41_prime_refuted.
Example C41_nonvacuous_prime : le_bytes 32 bls_prime <> le_bytes 32 bn_prime.
Proof. vm_compute. congruence. Qed.

(* limbs: what fits comes back, what does not is refused *)
Theorem C42_roundtrip : forall s size,
  (0 <= s < 2 ^ (32 * Z.of_nat size) ->
     exists l, to_array32 s size = Ok l /\ length l = size /\ Forall isword l /\ from_array32 l = s) /\
  (~ 0 <= s < 2 ^ (32 * Z.of_nat size) -> to_array32 s size = Panic).
Proof. exact limbs_roundtrip. Qed.
Print Assumptions C42_roundtrip.
Example C42_nonvacuous_roundtrip : to_array32 (2 ^ 64 + 5) 4 = Ok [0; 1; 0; 5] /\ to_array32 (- 2 ^ 32) 4 = Panic /\ to_array32 (2 ^ 64) 2 = Panic.
Proof. split; [vm_compute; reflexivity|]. split; vm_compute; reflexivity. Qed.

Theorem C42_limbs : forall l, Forall isword l -> to_array32 (from_array32 l) (length l) = Ok l.
Proof. exact array_roundtrip. Qed.
Print Assumptions C42_limbs.
Example C42_nonvacuous_limbs : Forall isword [0; 7; 2 ^ 32 - 1].
Proof. repeat constructor; vm_compute; congruence. Qed.

(* an input value written to the shared memory of the circuit as words, and a witness read from it,
   use the same order: reading back as a witness gives the value *)
Theorem C42_memory : forall v n, 0 <= v < 2 ^ (32 * Z.of_nat n) ->
  (do ws <- input_words v n; witness_values n 1 ws) = Ok [v].
Proof. exact memory_roundtrip. Qed.
Print Assumptions C42_memory.
Example C42_nonvacuous_memory : input_words (2 ^ 32 * 3 + 4) 3 = Ok [4; 3; 0].
Proof. vm_compute. reflexivity. Qed.
