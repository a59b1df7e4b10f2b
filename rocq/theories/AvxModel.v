(* Models of fields/src/arch/x86_64/avx2_field_gl.rs and avx512_field_gl.rs.
   A vector register is the list of its 64-bit lanes, lowest lane first: four lanes for __m256i and
   eight for __m512i.  The x86 intrinsics follow the pseudo-code of the Intel intrinsics guide; this
   reading is part of the trusted base.  Casts between integer, float and double vectors keep the
   bits, so they are not written.  A GoldilocksField scalar is FrRepr, the canonical word, not the
   Montgomery word. *)
From Verif Require Import Base GlModel.
Open Scope Z_scope.

Notation vec := (list Z) (only parsing).

Fixpoint map2 {A B C} (f : A -> B -> C) (x : list A) (y : list B) : list C :=
  match x, y with a :: x', b :: y' => f a b :: map2 f x' y' | _, _ => [] end.

(** * 64-bit lanes *)

Definition H32 : Z := 2 ^ 32.
Definition lo32 (x : Z) : Z := x mod H32.
Definition hi32 (x : Z) : Z := x / H32.
(* all bits set: the mask of a true comparison *)
Definition ONES64 : Z := W - 1.
(* reading a word of [b] bits as a signed number *)
Definition signed (b x : Z) : Z := if x <? 2 ^ (b - 1) then x else x - 2 ^ b.

(* _mm256_add_epi64, _mm256_sub_epi64: wrapping *)
Definition l_add (a b : Z) : Z := (a + b) mod W.
Definition l_sub (a b : Z) : Z := (a - b) mod W.
(* _mm256_srli_epi64, _mm256_slli_epi64 *)
Definition l_srl (n a : Z) : Z := a / 2 ^ n.
Definition l_sll (n a : Z) : Z := (a * 2 ^ n) mod W.
(* _mm256_mul_epu32: the product of the low halves *)
Definition l_mul32 (a b : Z) : Z := lo32 a * lo32 b.
(* _mm256_cmpgt_epi64: signed *)
Definition l_gt64 (a b : Z) : Z := if signed 64 b <? signed 64 a then ONES64 else 0.
(* _mm256_cmpgt_epi32: signed, half by half *)
Definition l_gt32 (a b : Z) : Z :=
  (if signed 32 (hi32 b) <? signed 32 (hi32 a) then H32 - 1 else 0) * H32
  + (if signed 32 (lo32 b) <? signed 32 (lo32 a) then H32 - 1 else 0).
(* _mm256_andnot_si256: (not a) and b *)
Definition l_andnot (a b : Z) : Z := Z.land (ONES64 - a) b.
(* _mm256_movehdup_ps: the high half into both; _mm256_moveldup_ps: the low half into both *)
Definition l_hdup (a : Z) : Z := hi32 a * H32 + hi32 a.
Definition l_ldup (a : Z) : Z := lo32 a * H32 + lo32 a.
(* _mm256_blend_epi32::<0xaa>(a, b): odd (high) halves from b, even (low) halves from a *)
Definition l_blend_aa (a b : Z) : Z := hi32 b * H32 + lo32 a.

(** * AVX2 (four lanes) *)

(* avx2_field_gl.rs:294-299 *)
Definition SIGN_BIT : Z := 2 ^ 63.
Definition FIELD_ORDER : Z := 18446744069414584321.
Definition SHIFTED_FIELD_ORDER : Z := Z.lxor FIELD_ORDER SIGN_BIT.
Definition EPSILON : Z := 4294967295.
(* a constant in every lane of a register as wide as [x] *)
Definition splat (c : Z) (x : vec) : vec := map (fun _ => c) x.

(* avx2_field_gl.rs:304-306 *)
Definition v2_shift (x : vec) : vec := map2 Z.lxor x (splat SIGN_BIT x).

(* avx2_field_gl.rs:313-319 *)
Definition v2_canonicalize_s (x_s : vec) : vec :=
  let mask := map2 l_gt64 (splat SHIFTED_FIELD_ORDER x_s) x_s in
  let wrapback_amt := map2 l_andnot mask (splat EPSILON x_s) in
  map2 l_add x_s wrapback_amt.

(* avx2_field_gl.rs:324-330 *)
Definition v2_add_no_double_overflow (x y_s : vec) : vec :=
  let res_wrapped_s := map2 l_add x y_s in
  let mask := map2 l_gt64 y_s res_wrapped_s in
  let wrapback_amt := map (l_srl 32) mask in
  map2 l_add res_wrapped_s wrapback_amt.

(* avx2_field_gl.rs:333-338 *)
Definition v2_add (x y : vec) : vec :=
  let y_s := v2_shift y in
  let res_s := v2_add_no_double_overflow x (v2_canonicalize_s y_s) in
  v2_shift (v2_canonicalize_s res_s).

(* avx2_field_gl.rs:341-350 *)
Definition v2_sub (x y : vec) : vec :=
  let y_s := v2_shift y in
  let y_s := v2_canonicalize_s y_s in
  let x_s := v2_shift x in
  let mask := map2 l_gt64 y_s x_s in
  let wrapback_amt := map (l_srl 32) mask in
  let res_wrapped := map2 l_sub x_s y_s in
  map2 l_sub res_wrapped wrapback_amt.

(* avx2_field_gl.rs:353-356 *)
Definition v2_neg (y : vec) : vec :=
  let y_s := v2_shift y in
  map2 l_sub (splat SHIFTED_FIELD_ORDER y) (v2_canonicalize_s y_s).

(* avx2_field_gl.rs:361-398: (high, low) words of the product *)
Definition v2_mul64_64 (x y : vec) : vec * vec :=
  let x_hi := map l_hdup x in
  let y_hi := map l_hdup y in
  let mul_ll := map2 l_mul32 x y in
  let mul_lh := map2 l_mul32 x y_hi in
  let mul_hl := map2 l_mul32 x_hi y in
  let mul_hh := map2 l_mul32 x_hi y_hi in
  let mul_ll_hi := map (l_srl 32) mul_ll in
  let t0 := map2 l_add mul_hl mul_ll_hi in
  let t0_lo := map2 Z.land t0 (splat EPSILON x) in
  let t0_hi := map (l_srl 32) t0 in
  let t1 := map2 l_add mul_lh t0_lo in
  let t2 := map2 l_add mul_hh t0_hi in
  let t1_hi := map (l_srl 32) t1 in
  let res_hi := map2 l_add t2 t1_hi in
  let t1_lo := map l_ldup t1 in
  let res_lo := map2 l_blend_aa mul_ll t1_lo in
  (res_hi, res_lo).

(* avx2_field_gl.rs:402-423 *)
Definition v2_square64 (x : vec) : vec * vec :=
  let x_hi := map l_hdup x in
  let mul_ll := map2 l_mul32 x x in
  let mul_lh := map2 l_mul32 x x_hi in
  let mul_hh := map2 l_mul32 x_hi x_hi in
  let mul_ll_hi := map (l_srl 33) mul_ll in
  let t0 := map2 l_add mul_lh mul_ll_hi in
  let t0_hi := map (l_srl 31) t0 in
  let res_hi := map2 l_add mul_hh t0_hi in
  let mul_lh_lo := map (l_sll 33) mul_lh in
  let res_lo := map2 l_add mul_ll mul_lh_lo in
  (res_hi, res_lo).

(* avx2_field_gl.rs:428-440 *)
Definition v2_add_small (x_s y : vec) : vec :=
  let res_wrapped_s := map2 l_add x_s y in
  let mask := map2 l_gt32 x_s res_wrapped_s in
  let wrapback_amt := map (l_srl 32) mask in
  map2 l_add res_wrapped_s wrapback_amt.

(* avx2_field_gl.rs:445-457 *)
Definition v2_sub_small (x_s y : vec) : vec :=
  let res_wrapped_s := map2 l_sub x_s y in
  let mask := map2 l_gt32 res_wrapped_s x_s in
  let wrapback_amt := map (l_srl 32) mask in
  map2 l_sub res_wrapped_s wrapback_amt.

(* avx2_field_gl.rs:460-470; also Avx2GoldilocksField::reduce, 40-43 *)
Definition v2_reduce128 (x : vec * vec) : vec :=
  let (hi0, lo0) := x in
  let lo0_s := v2_shift lo0 in
  let hi_hi0 := map (l_srl 32) hi0 in
  let lo1_s := v2_sub_small lo0_s hi_hi0 in
  let t1 := map2 l_mul32 hi0 (splat EPSILON hi0) in
  let lo2_s := v2_add_small lo1_s t1 in
  v2_shift (v2_canonicalize_s lo2_s).

(* avx2_field_gl.rs:474-476, 480-482 *)
Definition v2_mul (x y : vec) : vec := v2_reduce128 (v2_mul64_64 x y).
Definition v2_square (x : vec) : vec := v2_reduce128 (v2_square64 x).

(* _mm256_unpacklo_epi64, _mm256_unpackhi_epi64 (and the _pd forms): in each 128-bit half *)
Definition v2_unpacklo (x y : vec) : vec :=
  match x, y with [x0; _; x2; _], [y0; _; y2; _] => [x0; y0; x2; y2] | _, _ => [] end.
Definition v2_unpackhi (x y : vec) : vec :=
  match x, y with [_; x1; _; x3], [_; y1; _; y3] => [x1; y1; x3; y3] | _, _ => [] end.
(* _mm256_permute2x128_si256 (and permute2f128): 0x20 joins the low halves, 0x31 the high ones *)
Definition v2_permute_20 (x y : vec) : vec := firstn 2 x ++ firstn 2 y.
Definition v2_permute_31 (x y : vec) : vec := skipn 2 x ++ skipn 2 y.
(* _mm256_inserti128_si256::<1>(x, low half of y) *)
Definition v2_inserti128_1 (x y : vec) : vec := firstn 2 x ++ firstn 2 y.

(* avx2_field_gl.rs:485-489, 492-509 *)
Definition v2_interleave1 (x y : vec) : vec * vec := (v2_unpacklo x y, v2_unpackhi x y).
Definition v2_interleave2 (x y : vec) : vec * vec := (v2_inserti128_1 x y, v2_permute_31 x y).

(* avx2_field_gl.rs:72-81 *)
Definition v2_interleave (x y : vec) (block_len : Z) : res (vec * vec) :=
  if block_len =? 1 then Ok (v2_interleave1 x y)
  else if block_len =? 2 then Ok (v2_interleave2 x y)
  else if block_len =? 4 then Ok (x, y)
  else Panic.

(* avx2_field_gl.rs:132-139, 141-147: division of a vector by a scalar *)
Definition v2_div (x : vec) (rhs : Z) : res vec :=
  match from_repr rhs with
  | Ok r => match inverse r with
            | Some i => Ok (v2_mul x (splat (into_repr i) x))
            | None => Panic
            end
  | _ => Panic
  end.

(** * AVX-512 (eight lanes) *)

(* _mm512_cmpge_epu64_mask with _mm512_mask_sub_epi64, lane by lane: where the mask bit is clear the
   first operand is kept *)
Definition l_ge (a b : Z) : bool := b <=? a.
Definition l_lt (a b : Z) : bool := a <? b.
Fixpoint masked (f : Z -> Z -> Z) (src : vec) (mask : list bool) (x y : vec) : vec :=
  match src, mask, x, y with
  | s :: src', m :: mask', a :: x', b :: y' => (if m : bool then f a b else s) :: masked f src' mask' x' y'
  | _, _, _, _ => []
  end.

(* avx512_field_gl.rs:260-263 *)
Definition v5_canonicalize (x : vec) : vec :=
  let mask := map2 l_ge x (splat FIELD_ORDER x) in
  masked l_sub x mask x (splat FIELD_ORDER x).

(* avx512_field_gl.rs:266-271 *)
Definition v5_add_no_double_overflow (x y : vec) : vec :=
  let res_wrapped := map2 l_add x y in
  let mask := map2 l_lt res_wrapped y in
  masked l_sub res_wrapped mask res_wrapped (splat FIELD_ORDER x).

(* avx512_field_gl.rs:274-279 *)
Definition v5_sub_no_double_overflow (x y : vec) : vec :=
  let mask := map2 l_lt x y in
  let res_wrapped := map2 l_sub x y in
  masked l_add res_wrapped mask res_wrapped (splat FIELD_ORDER x).

(* avx512_field_gl.rs:282-285, 288-290, 293-295 *)
Definition v5_add (x y : vec) : vec := v5_canonicalize (v5_add_no_double_overflow x (v5_canonicalize y)).
Definition v5_sub (x y : vec) : vec := v5_sub_no_double_overflow x (v5_canonicalize y).
Definition v5_neg (y : vec) : vec := map2 l_sub (splat FIELD_ORDER y) (v5_canonicalize y).

(* _mm512_mask_blend_epi32(0b0101010101010101, a, b): even (low) halves from b, odd from a *)
Definition l_blend_55 (a b : Z) : Z := hi32 a * H32 + lo32 b.

(* avx512_field_gl.rs:300-338 *)
Definition v5_mul64_64 (x y : vec) : vec * vec :=
  let x_hi := map l_hdup x in
  let y_hi := map l_hdup y in
  let mul_ll := map2 l_mul32 x y in
  let mul_lh := map2 l_mul32 x y_hi in
  let mul_hl := map2 l_mul32 x_hi y in
  let mul_hh := map2 l_mul32 x_hi y_hi in
  let mul_ll_hi := map (l_srl 32) mul_ll in
  let t0 := map2 l_add mul_hl mul_ll_hi in
  let t0_lo := map2 Z.land t0 (splat EPSILON x) in
  let t0_hi := map (l_srl 32) t0 in
  let t1 := map2 l_add mul_lh t0_lo in
  let t2 := map2 l_add mul_hh t0_hi in
  let t1_hi := map (l_srl 32) t1 in
  let res_hi := map2 l_add t2 t1_hi in
  let t1_lo := map l_ldup t1 in
  let res_lo := map2 l_blend_55 t1_lo mul_ll in
  (res_hi, res_lo).

(* avx512_field_gl.rs:341-362 *)
Definition v5_square64 (x : vec) : vec * vec :=
  let x_hi := map l_hdup x in
  let mul_ll := map2 l_mul32 x x in
  let mul_lh := map2 l_mul32 x x_hi in
  let mul_hh := map2 l_mul32 x_hi x_hi in
  let mul_ll_hi := map (l_srl 33) mul_ll in
  let t0 := map2 l_add mul_lh mul_ll_hi in
  let t0_hi := map (l_srl 31) t0 in
  let res_hi := map2 l_add mul_hh t0_hi in
  let mul_lh_lo := map (l_sll 33) mul_lh in
  let res_lo := map2 l_add mul_ll mul_lh_lo in
  (res_hi, res_lo).

(* avx512_field_gl.rs:365-373; also Avx512GoldilocksField::reduce *)
Definition v5_reduce128 (x : vec * vec) : vec :=
  let (hi0, lo0) := x in
  let hi_hi0 := map (l_srl 32) hi0 in
  let lo1 := v5_sub_no_double_overflow lo0 hi_hi0 in
  let t1 := map2 l_mul32 hi0 (splat EPSILON hi0) in
  let lo2 := v5_add_no_double_overflow lo1 t1 in
  v5_canonicalize lo2.

(* avx512_field_gl.rs:376-378, 381-383 *)
Definition v5_mul (x y : vec) : vec := v5_reduce128 (v5_mul64_64 x y).
Definition v5_square (x : vec) : vec := v5_reduce128 (v5_square64 x).

(* _mm512_unpacklo_epi64, _mm512_unpackhi_epi64 (and the _pd forms): in each 128-bit quarter *)
Definition v5_unpacklo (x y : vec) : vec :=
  match x, y with
  | [x0; _; x2; _; x4; _; x6; _], [y0; _; y2; _; y4; _; y6; _] => [x0; y0; x2; y2; x4; y4; x6; y6]
  | _, _ => []
  end.
Definition v5_unpackhi (x y : vec) : vec :=
  match x, y with
  | [_; x1; _; x3; _; x5; _; x7], [_; y1; _; y3; _; y5; _; y7] => [x1; y1; x3; y3; x5; y5; x7; y7]
  | _, _ => []
  end.
(* _mm512_permutex2var_epi64(x, idx, y): the low three bits of an index choose the lane, bit 3 the
   source *)
Definition v5_permutex2var (x : vec) (idx : list nat) (y : vec) : vec :=
  map (fun k => nth (k mod 8) (if Nat.odd (k / 8) then y else x) 0) idx.
(* _mm512_shuffle_i64x2: 0x44 takes the low two quarters of each source, 0xee the high two *)
Definition v5_shuffle_44 (x y : vec) : vec := firstn 4 x ++ firstn 4 y.
Definition v5_shuffle_ee (x y : vec) : vec := skipn 4 x ++ skipn 4 y.

(* avx512_field_gl.rs:392-395 (octal constants) *)
Definition INTERLEAVE2_IDX_A : list nat := [0; 1; 8; 9; 4; 5; 12; 13]%nat.
Definition INTERLEAVE2_IDX_B : list nat := [2; 3; 10; 11; 6; 7; 14; 15]%nat.

(* avx512_field_gl.rs:386-390, 398-402, 405-409 *)
Definition v5_interleave1 (x y : vec) : vec * vec := (v5_unpacklo x y, v5_unpackhi x y).
Definition v5_interleave2 (x y : vec) : vec * vec :=
  (v5_permutex2var x INTERLEAVE2_IDX_A y, v5_permutex2var x INTERLEAVE2_IDX_B y).
Definition v5_interleave4 (x y : vec) : vec * vec := (v5_shuffle_44 x y, v5_shuffle_ee x y).

(* avx512_field_gl.rs:79-89 *)
Definition v5_interleave (x y : vec) (block_len : Z) : res (vec * vec) :=
  if block_len =? 1 then Ok (v5_interleave1 x y)
  else if block_len =? 2 then Ok (v5_interleave2 x y)
  else if block_len =? 4 then Ok (v5_interleave4 x y)
  else if block_len =? 8 then Ok (x, y)
  else Panic.

(* avx512_field_gl.rs:139-146, 147-153 *)
Definition v5_div (x : vec) (rhs : Z) : res vec :=
  match from_repr rhs with
  | Ok r => match inverse r with
            | Some i => Ok (v5_mul x (splat (into_repr i) x))
            | None => Panic
            end
  | _ => Panic
  end.

(** * packed.rs: casting slices *)

(* fields/src/packed.rs:71-80 (and the mutable form, 82-91): a slice as vectors of [width] lanes *)
Fixpoint pack_f (fuel width : nat) (l : vec) : list (list Z) :=
  match fuel, l with
  | _, [] => []
  | O, _ => []
  | S k, _ => firstn width l :: pack_f k width (skipn width l)
  end.
Definition pack_slice (width : nat) (l : vec) : res (list (list Z)) :=
  if (length l mod width =? 0)%nat then Ok (pack_f (length l) width l) else Panic.
(* avx2_field_gl.rs:52-56 *)
Definition from_slice (width : nat) (l : vec) : res vec :=
  if (length l =? width)%nat then Ok l else Panic.
