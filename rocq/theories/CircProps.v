(* The circuits of stark-circuits. *)
From Verif Require Import Base NumTheory GlModel FrField F3gModel Cubic F3gProof CircModel CircProof CircMore BnModel PrimeCert.
From Verif Require Import PolyModel PolyProof FftProof FftTop HashModel FriModel CircFft CircFriModel CircFri CircHash CircToy.
From Coq Require Import Znumtheory.
Open Scope Z_scope.

(* C97: whatever the prover puts on the inner signals, the arithmetic circuits compute in the Goldilocks field and its
   cubic extension, for every prime above 2^250 and all inputs of at most 120 bits and either sign. *)
Theorem C97_sound : forall r, big r ->
  (forall i out, small i -> GLNorm r i out -> 0 <= out < 2 ^ 64 /\ fof out = fof i) /\
  (forall a b out, small a -> small b -> GLMul r a b out -> 0 <= out < 2 ^ 64 /\ fof out = fmul (fof a) (fof b)) /\
  (forall a b c out, small a -> small b -> small c -> GLMulAdd r a b c out ->
    0 <= out < 2 ^ 64 /\ fof out = fadd (fmul (fof a) (fof b)) (fof c)) /\
  (forall a b out, small3 a -> small3 b -> GLCMul r a b out -> word3 out /\ kof out = kmul (kof a) (kof b)) /\
  (forall a b c out, small3 a -> small3 b -> small3' c -> GLCMulAdd r a b c out ->
    word3 out /\ kof out = kadd (kmul (kof a) (kof b)) (kof c)) /\
  (forall i out, small i -> GLInv r i out -> 0 <= out < 2 ^ 64 /\ fmul (fof i) (fof out) = f1) /\
  (forall i out, small3 i -> GLCInv r i out -> word3 out /\ kmul (kof i) (kof out) = kone).
Proof. exact arith_sound. Qed.
Print Assumptions C97_sound.
(* and every result that the circuits' own hints compute is accepted, for inputs from -16p on *)
Theorem C97_complete : forall r, big r ->
  (forall i, - 16 * gl_p <= i < 1000 * gl_p -> GLNorm r i (i mod gl_p)) /\
  (forall a b, fed a -> fed b -> GLMul r a b ((a * b) mod gl_p)) /\
  (forall a b c, fed a -> fed b -> 0 <= c < 2 ^ 138 -> GLMulAdd r a b c ((a * b + c) mod gl_p)) /\
  (forall a b, fed3 a -> fed3 b -> GLCMul r a b (mod3 (prod3 a b))) /\
  (forall a b c, fed3 a -> fed3 b -> fed3 c -> GLCMulAdd r a b c (mod3 (add3 (prod3 a b) c))) /\
  (forall i v, fed i -> 0 <= v < 2 ^ 64 -> fmul (fof i) (fof v) = f1 -> GLInv r i v) /\
  (forall i v, fed3 i -> word3 v -> kmul (kof i) (kof v) = kone -> GLCInv r i v).
Proof. exact arith_complete. Qed.
Print Assumptions C97_complete.
(* refuted: that the output is determined.  An element below 2^32-1 has two texts of 64 bits. *)
Theorem C97_unique_refuted : ~ (forall r i o o', big r -> small i -> GLNorm r i o -> GLNorm r i o' -> o = o').
Proof. exact norm_not_unique. Qed.
Print Assumptions C97_unique_refuted.
(* refuted: that every small input has an output.  Below -16p a product has none. *)
Theorem C97_total_refuted : ~ (forall r a b, big r -> small a -> small b -> exists out, GLMul r a b out).
Proof. exact mul_not_total. Qed.
Print Assumptions C97_total_refuted.
Example C97_nonvacuous : big bls_q /\ GLMul bls_q (-3) 5 (gl_p - 15) /\ GLCMul bls_q (1, 2, 0) (0, 0, 1) (2, 2, 1) /\ GLInv bls_q 2 9223372034707292161.
Proof.
  split; [exact bls_big|]. split; [exact (proj1 (proj2 (arith_complete bls_q bls_big)) (-3) 5 ltac:(now vm_compute) ltac:(now vm_compute))|].
  split; [exact toy_cmul|exact toy_inv].
Qed.

(* C98: a row of words is bound by its root.  Two openings of one place whose values are words are the same row, or a
   collision of the hash function has been found. *)
Theorem C98_bound : forall r hash key ins ins' sibs sibs' root, 2 ^ 192 <= r -> (forall b st, felt r (hash b st)) ->
  Forall bit01 key -> length ins = length ins' -> Forall (fun x => 0 <= x < 2 ^ 64) ins -> Forall (fun x => 0 <= x < 2 ^ 64) ins' ->
  length sibs = length sibs' -> Forall (fun s => length s = 16%nat) sibs -> Forall (fun s => length s = 16%nat) sibs' ->
  MerkleHash r hash key ins sibs = Some root -> MerkleHash r hash key ins' sibs' = Some root ->
  ins = ins' \/ exists b st b' st', (b, st) <> (b', st') /\ hash b st = hash b' st'.
Proof. exact merklehash_bind. Qed.
Print Assumptions C98_bound.
(* the rows' hash is the one of the Rust code *)
Theorem C98_same_hash : forall q rinv hash_ex hash, (R256 * rinv) mod q = 1 mod q ->
  (forall b st h, hash_q hash_ex b st = Ok h -> hash (map (q_value q rinv) b) (q_value q rinv st) = q_value q rinv h) ->
  forall col h, col <> [] -> hash_matrix1 q rinv hash_ex col = Ok h -> LinearHash q hash (map fint col) = Some (q_value q rinv h).
Proof. exact (fun q rinv hash_ex hash Hi Hh => linear_same q rinv Hi hash_ex hash Hh). Qed.
Print Assumptions C98_same_hash.
(* refuted for the circuit that is generated, which never checks that opened values are words: with any number of carries
   the same path opens another row, up to fifteen of them within the range where all arithmetic circuits have outputs,
   and each time both elements are others *)
Theorem C98_carry_refuted : forall r hash key x y rest sibs a,
  MerkleHash r hash key (x + 2 ^ 64 * a :: y - a :: rest) sibs = MerkleHash r hash key (x :: y :: rest) sibs /\
  (0 <= x < gl_p -> 0 <= y < gl_p -> 0 < a <= 15 ->
   fed (x + 2 ^ 64 * a) /\ fed (y - a) /\ fof (x + 2 ^ 64 * a) <> fof x /\ fof (y - a) <> fof y).
Proof. exact (fun r hash key x y rest sibs a => conj (path_carry r hash key x y rest sibs a) (carry_fed x y a)). Qed.
Print Assumptions C98_carry_refuted.
(* and any first value at all can be opened at any place *)
Theorem C98_free_refuted : forall r hash key x y rest sibs t, prime r -> 2 ^ 64 < r ->
  exists y', felt r y' /\ MerkleHash r hash key (t :: y' :: rest) sibs = MerkleHash r hash key (x :: y :: rest) sibs.
Proof. exact path_free. Qed.
Print Assumptions C98_free_refuted.
Example C98_nonvacuous : let hash b st := (7 * st + fold_left (fun s x => 3 * s + x) b 1) mod bls_q in
  (R256 * bls_rinv) mod bls_q = 1 mod bls_q /\ 2 ^ 192 <= bls_q /\
  MerkleHash bls_q hash [1; 0; 0; 0] [1; 2; 3; 4] [repeat 9 16] = Some (hash (map (fun j => if j =? 1 then hash [1 + 2 ^ 64 * 2 + 2 ^ 128 * 3; 4] 0 else 9) (map Z.of_nat (seq 0 16))) 0) /\
  MerkleHash bls_q hash [1; 0; 0; 0] [1 + 2 ^ 64; 1; 3; 4] [repeat 9 16] = MerkleHash bls_q hash [1; 0; 0; 0] [1; 2; 3; 4] [repeat 9 16].
Proof. cbv zeta. split; [vm_compute; reflexivity|]. split; [vm_compute; discriminate|]. split; vm_compute; reflexivity. Qed.

(* C99: the three outputs of BN1toGL3 are the three low words of the input or of the input plus r, over every prime above 2^254 *)
Theorem C99_sound : forall r i o, prime r -> 2 ^ 254 < r -> BN1toGL3 r i o ->
  exists v, (v = i \/ v = i + r) /\ 0 <= v < 2 ^ 255 /\
    on3 (eqr r) o (v mod 2 ^ 64, v / 2 ^ 64 mod 2 ^ 64, v / 2 ^ 128 mod 2 ^ 64).
Proof. exact bn1_sound. Qed.
Print Assumptions C99_sound.
Theorem C99_complete : forall r i, 1 < r -> 0 <= i < r -> i < 2 ^ 255 ->
  BN1toGL3 r i (i mod 2 ^ 64, i / 2 ^ 64 mod 2 ^ 64, i / 2 ^ 128 mod 2 ^ 64).
Proof. exact bn1_total. Qed.
Print Assumptions C99_complete.
(* refuted: that the input determines the challenge.  Over the scalar field of BLS12-381 every input below 2^255 - r has
   two, and the prover chooses *)
Theorem C99_unique_refuted : forall i, 0 <= i < 2 ^ 255 - bls_q ->
  BN1toGL3 bls_q i (words3 i) /\ BN1toGL3 bls_q i (words3 (i + bls_q)) /\ words3 i <> words3 (i + bls_q).
Proof. exact bn1_bls. Qed.
Print Assumptions C99_unique_refuted.
Example C99_nonvacuous : prime bls_q /\ 2 ^ 254 < bls_q /\ 0 <= 5 < 2 ^ 255 - bls_q /\ words3 5 = (5, 0, 0).
Proof. split; [exact bls_q_prime|]. split; [reflexivity|]. split; [split; [discriminate|reflexivity]|reflexivity]. Qed.

(* C100: CompConstant64 says whether the number of the 64 bits is above the constant *)
Theorem C100_compare : forall r ct ins out, prime r -> 2 ^ 34 < r -> 0 <= ct < 2 ^ 64 -> length ins = 64%nat ->
  Forall bit01 ins -> CompConstant64 r ct ins out -> eqr r out (if ct <? bsum ins then 1 else 0).
Proof. exact comp_sound. Qed.
Print Assumptions C100_compare.
Theorem C100_compare_total : forall r ct ins, 2 ^ 34 < r -> 0 <= ct < 2 ^ 64 -> length ins = 64%nat -> Forall bit01 ins ->
  exists out, CompConstant64 r ct ins out.
Proof. exact comp_complete. Qed.
Print Assumptions C100_compare_total.
(* TreeSelector gives the value that the key's bits count to, and there is no other *)
Theorem C100_select : forall r ks vs out, Forall bit01 ks -> TreeSelector r vs ks out ->
  length vs = (2 ^ length ks)%nat /\ eqr r out (nth (Z.to_nat (bsum ks)) vs 0).
Proof. exact (fun r ks vs out B H => select_levels_nth r ks vs out B (proj2 H)). Qed.
Print Assumptions C100_select.
Theorem C100_select_total : forall r ks vs, ks <> [] -> length vs = (2 ^ length ks)%nat -> exists out, TreeSelector r vs ks out.
Proof. exact select_total. Qed.
Print Assumptions C100_select_total.
(* the fields of bits are determined *)
Theorem C100_bits : forall r n x bs bs', prime r -> 2 ^ Z.of_nat n <= r -> Num2Bits r n x bs -> Num2Bits r n x bs' -> bs = bs' /\ bsum bs = x.
Proof. exact bits_determined. Qed.
Print Assumptions C100_bits.
Example C100_nonvacuous : (exists out, CompConstant64 bls_q 5 (bits_of 64 6) out) /\ bsum (bits_of 64 6) = 6 /\
  TreeSelector bls_q [4; 5; 6; 7] [0; 1] 6.
Proof. exact toy_select. Qed.

(* C101: a query of a FRI step that the circuit accepts is one that the verifier accepts: the value it recomputes from the
   opened group is the one of the next step (or of the last polynomial) that it compares with *)
Theorem C101_sound : forall r ext pb nb nb2 ys xs sx vals, big r -> (pb <= 31)%nat -> (nb <= pb)%nat -> length ys = nb ->
  Forall bit01 ys -> Forall small3' xs -> small3 sx -> Forall small3' vals ->
  fold_step r ext pb nb nb2 ys xs sx vals ->
  forall pg shift x want, map val pg = map kof xs -> val shift = kpow (kconst SHIFT) (Z.to_nat (2 ^ Z.of_nat (ext - pb))) ->
  val x = kof sx -> wf want -> let y := Z.to_nat (bsum ys) in val want = kof (nth (y / 2 ^ nb2) vals (0, 0, 0)) ->
  exists v, fold_check pg pb y shift x = Ok v /\ e__eq v want = true.
Proof. exact fold_step_accepts. Qed.
Print Assumptions C101_sound.
(* and conversely, for steps of at least two bits *)
Theorem C101_complete : forall r ext pb nb nb2 ys xs sx vals, big r -> (pb <= 31)%nat -> (nb <= pb)%nat -> (2 <= nb)%nat -> (nb2 < nb)%nat ->
  length ys = nb -> Forall bit01 ys -> length xs = (2 ^ (pb - nb))%nat -> length vals = (2 ^ (nb - nb2))%nat ->
  Forall word3 xs -> word3 sx -> Forall word3 vals ->
  forall pg shift x v, map val pg = map kof xs -> val shift = kpow (kconst SHIFT) (Z.to_nat (2 ^ Z.of_nat (ext - pb))) ->
  val x = kof sx -> let y := Z.to_nat (bsum ys) in
  fold_check pg pb y shift x = Ok v -> val v = kof (nth (y / 2 ^ nb2) vals (0, 0, 0)) ->
  fold_step r ext pb nb nb2 ys xs sx vals.
Proof. exact fold_step_complete. Qed.
Print Assumptions C101_complete.
(* the parts: FFT with inv is the verifier's ifft, and EvalPol its eval_pol *)
Theorem C101_ifft : forall r s xs cs, big r -> (s <= 31)%nat -> Forall small3' xs -> FFT3 r s (fft_ws true s) xs cs ->
  Forall word3 cs /\ ifft (F := opsK) (map kof xs) = Ok (map kof cs).
Proof. exact fft3_ifft. Qed.
Print Assumptions C101_ifft.
Theorem C101_evalpol : forall r pol x out, big r -> small3 x -> Forall small3' pol -> EvalPol r pol x out ->
  exists v, on3 (eqr r) out v /\ small3' v /\ kof v = eval_pol (F := opsK) (map kof pol) (kof x).
Proof. exact evalpol_same. Qed.
Print Assumptions C101_evalpol.
Example C101_nonvacuous : big bls_q /\ exists vals, Forall word3 vals /\ fold_step bls_q 3 3 2 0 [1; 0] [(1, 0, 0); (2, 7, 0)] (5, 0, 1) vals.
Proof. split; [exact bls_big|exact toy_fold]. Qed.

(* C102: a last polynomial that the circuit accepts is one that the verifier accepts *)
Theorem C102_sound : forall r nb maxdeg final, big r -> (nb <= 31)%nat -> Forall small3' final -> last_pol r nb maxdeg final ->
  forall l, map val l = map kof final -> check_last l (2 ^ maxdeg) = Ok true.
Proof. exact last_sound. Qed.
Print Assumptions C102_sound.
(* refuted: the converse.  The verifier also takes a coefficient at 2^maxdeg itself: with one value allowed it takes the
   polynomial X, and the circuit does not. *)
Theorem C102_same_refuted : ~ (forall r nb maxdeg final l, big r -> (nb <= 31)%nat -> Forall word3 final -> map val l = map kof final ->
  check_last l (2 ^ maxdeg) = Ok true -> last_pol r nb maxdeg final).
Proof. exact last_not_same. Qed.
Print Assumptions C102_same_refuted.
Example C102_nonvacuous : big bls_q /\ Forall word3 [(7, 0, 0); (7, 0, 0)] /\ last_pol bls_q 1 0 [(7, 0, 0); (7, 0, 0)].
Proof. split; [exact bls_big|]. exact toy_last. Qed.
