(* C17 and C50: the bit reversal cache and the parallel transforms of fft_p.rs. *)
From Verif Require Import Base GlModel FrField F3gModel Cubic F3gProof PolyModel HashModel FftpModel BrProof FftpTop.
Open Scope nat_scope.

(* whatever calls were made before (including failed ones), a returned value is the reversal: bit j of
   the result is bit k-1-j of the argument *)
Theorem C17_value : forall calls x k r, (Z.of_nat x < 2 ^ 32)%Z ->
  fst (BR x k (snd (run_BR calls br_new))) = Ok r ->
  forall j, (0 <= j)%Z ->
    Z.testbit (Z.of_nat r) j = if (j <? Z.of_nat k)%Z then Z.testbit (Z.of_nat x) (Z.of_nat k - 1 - j) else false.
Proof. exact history_value. Qed.
Print Assumptions C17_value.

(* calls with x at most 2^k never fail *)
Theorem C17_total_partial : forall calls, Forall (fun c => snd c <= 32 /\ fst c <= 2 ^ snd c) calls ->
  Forall (fun v => exists r, v = Ok r) (fst (run_BR calls br_new)).
Proof. intros calls H. exact (proj1 (history_total calls H br_new new_nice)). Qed.
Print Assumptions C17_total_partial.

(* one past the cached range panics, and the poisoned lock makes every later call panic *)
Theorem C17_history_refuted : forall k, k <= 32 ->
  exists r, fst (run_BR [(0, k); (2 ^ k + 1, k)] br_new) = [Ok r; Panic] /\
    forall calls, Forall (fun v => v = Panic) (fst (run_BR calls (snd (run_BR [(0, k); (2 ^ k + 1, k)] br_new)))).
Proof. exact history_fails. Qed.
Print Assumptions C17_history_refuted.

Example C17_nonvacuous :
  fst (run_BR [(1, 3); (6, 3); (11, 4); (3, 3); (2, 4)] br_new) = [Ok 4; Ok 3; Ok 13; Ok 6; Ok 4] /\
  fst (run_BR [(0, 2); (5, 2); (1, 2)] br_new) = [Ok 0; Panic; Panic] /\
  fst (run_BR [(5, 2)] br_new) = [Ok 2].
Proof. repeat split; vm_compute; reflexivity. Qed.

(* every column of the result is the extension of the same column by the reference; the output buffer
   may hold anything up to 2^24 rows, beyond it must be zero *)
Theorem C50_interpolate_partial : forall workers src np nbits dst nbitsext calls,
  0 < workers -> 0 < np <= MAX_OPS -> 1 <= nbits <= nbitsext -> nbitsext <= 31 ->
  length src = 2 ^ nbits * np -> length dst = 2 ^ nbitsext * np -> Forall in_range calls ->
  (nbitsext <= 24 \/ Forall (fun x => val x = kzero) dst) ->
  exists out, fst (interpolate workers src np nbits dst nbitsext (snd (run_BR calls br_new))) = Ok out /\ length out = 2 ^ nbitsext * np /\
    forall k, k < np -> exists r, extend_pol (F := opsE) (column np src k) (nbitsext - nbits) = Ok r /\ map val (column np out k) = map val r.
Proof. exact interpolate_columns. Qed.
Print Assumptions C50_interpolate_partial.

Theorem C50_fft : forall workers (inverse : bool) src np nbits dst calls,
  0 < workers -> 0 < np -> 1 <= nbits <= 31 ->
  length src = 2 ^ nbits * np -> length dst = 2 ^ nbits * np -> Forall in_range calls ->
  exists out, fst (p_fft workers inverse src np nbits dst (snd (run_BR calls br_new))) = Ok out /\ length out = 2 ^ nbits * np /\
    forall k, k < np -> exists r, (if inverse then ifft (F := opsE) (column np src k) else fft (F := opsE) (column np src k)) = Ok r /\
      map val (column np out k) = map val r.
Proof. exact p_fft_columns. Qed.
Print Assumptions C50_fft.

(* a single row panics although the reference extends it *)
Theorem C50_one_row_refuted : forall workers src np dst nbitsext calls,
  0 < workers -> 0 < np -> nbitsext <= 31 -> length src = np -> length dst = 2 ^ nbitsext * np -> Forall in_range calls ->
  fst (interpolate workers src np 0 dst nbitsext (snd (run_BR calls br_new))) = Panic /\
  forall k, k < np -> exists r, extend_pol (F := opsE) (column np src k) nbitsext = Ok r.
Proof. exact interpolate_one_row. Qed.
Print Assumptions C50_one_row_refuted.

(* two columns of two rows, a dirty output buffer and a used cache *)
Example C50_nonvacuous :
  let src := map (fun z => e_from (fof z)) [1; 3; 2; 5]%Z in
  let dst := repeat (e_from (fof 7)) 8 in
  let r := [18446744069414584276; 18432951795555762181; 53; 13792273858822148]%Z in
  rmap (fun out => map e_as_int (column 2 out 1)) (fst (interpolate 3 src 2 1 dst 2 (snd (run_BR [(3, 2)] br_new)))) = Ok r /\
  rmap (map e_as_int) (extend_pol (F := opsE) (column 2 src 1) 1) = Ok r.
Proof. split; vm_compute; reflexivity. Qed.
