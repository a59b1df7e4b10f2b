(* Property C07: the vectorised Goldilocks operations.
   A register is the list of its 64-bit lanes (four for AVX2, eight for AVX-512).
   [u64 x] is 0 <= x < 2^64, [canonical x] is 0 <= x < p. *)
From Verif Require Import Base GlModel AvxModel AvxProof.
Open Scope Z_scope.

(* addition, multiplication and squaring give the canonical word for every pair of 64-bit words;
   subtraction does when its left operand is canonical *)
Theorem C07_avx2_lanes : forall x y, length x = 4%nat -> length y = 4%nat -> Forall u64 x -> Forall u64 y ->
  v2_add x y = map2 (fun a b => (a + b) mod 18446744069414584321) x y /\
  v2_mul x y = map2 (fun a b => (a * b) mod 18446744069414584321) x y /\
  v2_square x = map (fun a => (a * a) mod 18446744069414584321) x /\
  (Forall canonical x -> v2_sub x y = map2 (fun a b => (a - b) mod 18446744069414584321) x y).
Proof. exact v2_lanes. Qed.
Print Assumptions C07_avx2_lanes.

Theorem C07_avx512_lanes : forall x y, length x = 8%nat -> length y = 8%nat -> Forall u64 x -> Forall u64 y ->
  v5_add x y = map2 (fun a b => (a + b) mod 18446744069414584321) x y /\
  v5_mul x y = map2 (fun a b => (a * b) mod 18446744069414584321) x y /\
  v5_square x = map (fun a => (a * a) mod 18446744069414584321) x /\
  (Forall canonical x -> v5_sub x y = map2 (fun a b => (a - b) mod 18446744069414584321) x y).
Proof. exact v5_lanes. Qed.
Print Assumptions C07_avx512_lanes.

Example C07_nonvacuous_lanes :
  v2_mul [18446744069414584320; 18446744073709551615; 4294967296; 0] [18446744069414584320; 18446744073709551615; 4294967295; 7]
  = [1; 18446744056529682436; 18446744069414584320; 0] /\
  v2_add [18446744069414584320; 18446744073709551615; 4294967296; 0] [1; 18446744073709551615; 18446744069414584320; 7]
  = [0; 8589934588; 4294967295; 7] /\
  v2_sub [0; 5; 18446744069414584320; 1] [18446744069414584320; 6; 1; 18446744073709551615]
  = [1; 18446744069414584320; 18446744069414584319; 18446744065119617028].
Proof. vm_compute. auto. Qed.

(* the 128-bit reduction used by the vectorised hash *)
Theorem C07_reduce : forall h l, length h = length l -> Forall u64 h -> Forall u64 l ->
  v2_reduce128 (h, l) = map2 (fun a b => (a * 2 ^ 64 + b) mod 18446744069414584321) h l /\
  v5_reduce128 (h, l) = map2 (fun a b => (a * 2 ^ 64 + b) mod 18446744069414584321) h l.
Proof. exact reduce_both. Qed.
Print Assumptions C07_reduce.

Example C07_nonvacuous_reduce : v2_reduce128 ([18446744073709551615], [18446744073709551615])
  = [(2 ^ 128 - 1) mod 18446744069414584321].
Proof. vm_compute. reflexivity. Qed.

(* with a left operand that is not canonical the difference is only right modulo p *)
Theorem C07_sub_any_word : forall x y, u64 x -> u64 y ->
  (exists z, v2_sub [x] [y] = [z] /\ u64 z /\ z mod 18446744069414584321 = (x - y) mod 18446744069414584321) /\
  (exists z, v5_sub [x] [y] = [z] /\ u64 z /\ z mod 18446744069414584321 = (x - y) mod 18446744069414584321).
Proof. exact sub_any_both. Qed.
Print Assumptions C07_sub_any_word.

Example C07_nonvacuous_sub : v2_sub [18446744073709551615] [0] = [18446744073709551615].
Proof. vm_compute. reflexivity. Qed.

(* negation: right modulo p, canonical except on a zero lane, where the stored word is p *)
Theorem C07_neg_partial : forall x, Forall canonical x ->
  (Forall (fun a => a <> 0) x -> v2_neg x = map (fun a => (- a) mod 18446744069414584321) x /\
                                 v5_neg x = map (fun a => (- a) mod 18446744069414584321) x) /\
  map (fun a => a mod 18446744069414584321) (v2_neg x) = map (fun a => (- a) mod 18446744069414584321) x /\
  map (fun a => a mod 18446744069414584321) (v5_neg x) = map (fun a => (- a) mod 18446744069414584321) x.
Proof. exact neg_both. Qed.
Print Assumptions C07_neg_partial.

Theorem C07_neg_of_zero_not_canonical_refuted : forall x i, Forall canonical x -> (i < length x)%nat -> nth i x 1 = 0 ->
  nth i (v2_neg x) 0 = 18446744069414584321 /\ nth i (v5_neg x) 0 = 18446744069414584321 /\
  from_repr (nth i (v2_neg x) 0) = Err /\ from_repr (nth i (v5_neg x) 0) = Err.
Proof. exact neg_zero_both. Qed.
Print Assumptions C07_neg_of_zero_not_canonical_refuted.

Example C07_nonvacuous_neg : v2_neg [3; 0; 18446744069414584320; 1] =
  [18446744069414584318; 18446744069414584321; 1; 18446744069414584320].
Proof. vm_compute. reflexivity. Qed.

(* division of every lane by a scalar *)
Theorem C07_div : forall x rhs, Forall canonical x -> canonical rhs -> rhs <> 0 ->
  (exists q, v2_div x rhs = Ok q /\ Forall canonical q /\ map (fun a => (a * rhs) mod 18446744069414584321) q = x) /\
  (exists q, v5_div x rhs = Ok q /\ Forall canonical q /\ map (fun a => (a * rhs) mod 18446744069414584321) q = x).
Proof. exact div_both. Qed.
Print Assumptions C07_div.

Theorem C07_div_by_zero_refuted : forall x, Forall canonical x ->
  v2_div x 0 = Ok (map (fun _ => 0) x) /\ v5_div x 0 = Ok (map (fun _ => 0) x).
Proof. exact div_by_zero. Qed.
Print Assumptions C07_div_by_zero_refuted.

Theorem C07_div_rejects : forall x rhs, 18446744069414584321 <= rhs -> v2_div x rhs = Panic /\ v5_div x rhs = Panic.
Proof. exact div_rejects. Qed.
Print Assumptions C07_div_rejects.

Example C07_nonvacuous_div : v2_div [6; 9; 0; 18446744069414584318] 3 = Ok [2; 3; 0; 18446744069414584320].
Proof. vm_compute. reflexivity. Qed.

(* interleaving: lane i of the results, for blocks of b lanes *)
Theorem C07_interleave : forall x y b,
  (length x = 4%nat -> length y = 4%nat -> In b [1; 2; 4]%nat ->
     v2_interleave x y (Z.of_nat b) = Ok (if (b =? 4)%nat then (x, y) else (il0 b x y, il1 b x y))) /\
  (length x = 8%nat -> length y = 8%nat -> In b [1; 2; 4; 8]%nat ->
     v5_interleave x y (Z.of_nat b) = Ok (if (b =? 8)%nat then (x, y) else (il0 b x y, il1 b x y))).
Proof. exact interleave_both. Qed.
Print Assumptions C07_interleave.

Theorem C07_interleave_involution : forall x y b,
  (length x = 4%nat -> length y = 4%nat -> In b [1; 2; 4] ->
     bind (v2_interleave x y b) (fun p => v2_interleave (fst p) (snd p) b) = Ok (x, y)) /\
  (length x = 8%nat -> length y = 8%nat -> In b [1; 2; 4; 8] ->
     bind (v5_interleave x y b) (fun p => v5_interleave (fst p) (snd p) b) = Ok (x, y)).
Proof. exact interleave_inv_both. Qed.
Print Assumptions C07_interleave_involution.

Theorem C07_interleave_rejects : forall x y b, ~ In b [1; 2; 4] ->
  v2_interleave x y b = Panic /\ (b <> 8 -> v5_interleave x y b = Panic).
Proof. exact interleave_rejects. Qed.
Print Assumptions C07_interleave_rejects.

Example C07_nonvacuous_interleave :
  v2_interleave [10; 11; 12; 13] [20; 21; 22; 23] 1 = Ok ([10; 20; 12; 22], [11; 21; 13; 23]) /\
  v5_interleave [10; 11; 12; 13; 14; 15; 16; 17] [20; 21; 22; 23; 24; 25; 26; 27] 2
  = Ok ([10; 11; 20; 21; 14; 15; 24; 25], [12; 13; 22; 23; 16; 17; 26; 27]).
Proof. vm_compute. auto. Qed.
