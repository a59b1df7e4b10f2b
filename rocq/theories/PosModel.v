(* Models of the Poseidon hash functions: starky/src/poseidon_opt.rs (Goldilocks, width 12),
   starky/src/poseidon_bn128.rs and poseidon_bn128_opt.rs (BN254 scalar field, widths 2 to 17) with
   their BLS12-381 copies, and the vectorised starky/src/arch/x86_64/avx2_poseidon_gl.rs and
   avx512_poseidon_gl.rs. *)
From Verif Require Import Base GlModel FrField HashModel AvxModel.
Open Scope nat_scope.
Open Scope res_scope.

(** * The scalar functions, over any type of field elements *)

Section Scalar.
Variable A : Type.
Variables (zero : A) (add mul : A -> A -> A).
Variable sbox1 : A -> A.

(* poseidon_opt.rs:101, 106-108, 126-128, 167-169: state[i] += C[off + i] *)
Fixpoint add_consts (C : list A) (off : nat) (st : list A) : res (list A) :=
  match st with
  | [] => Ok []
  | a :: r => do c <- vget C off; do r' <- add_consts C (off + 1) r; Ok (add a c :: r')
  end.

(* poseidon_opt.rs:110-122 (also 130-142, 171-183, 187-197): out[i] = sum_j M[j][i] * state[j] *)
Definition mix_opt (M : list (list A)) (st : list A) : res (list A) :=
  mapM (fun i =>
    foldM (fun acc j => do row <- vget M j; do m <- vget row i; do s <- vget st j; Ok (add acc (mul m s)))
      (seq 0 (length st)) zero)
    (seq 0 (length st)).

(* poseidon_opt.rs:104-123 and 165-184: full rounds, the constants of round r at [base + r * t] *)
Definition full_opt (C : list A) (M : list (list A)) (t base n : nat) (st : list A) : res (list A) :=
  foldM (fun st r => do st <- add_consts C (base + r * t) (map sbox1 st); mix_opt M st) (seq 0 n) st.

(* poseidon_opt.rs:144-163: one partial round *)
Definition partial_opt (C S : list A) (t cbase : nat) (st : list A) (r : nat) : res (list A) :=
  match st with
  | [] => Panic
  | a :: rest =>
    do c <- vget C (cbase + r);
    let a := add (sbox1 a) c in
    let st := a :: rest in
    do s0 <- foldM (fun acc j => do k <- vget S ((t * 2 - 1) * r + j); do s <- vget st j; Ok (add acc (mul k s)))
               (seq 0 (length st)) zero;
    do rest <- mapM (fun k => do c <- vget S ((t * 2 - 1) * r + t + k - 1); do s <- vget st k; Ok (add s (mul c a)))
                 (seq 1 (t - 1));
    Ok (s0 :: rest)
  end.

(* poseidon_opt.rs:101-197 and poseidon_bn128_opt.rs:123-222: the whole permutation of a state of
   [t] elements *)
Definition permute_opt (nf np : nat) (C S : list A) (M P : list (list A)) (st : list A) : res (list A) :=
  let t := length st in
  let h := nf / 2 in
  do st <- add_consts C 0 st;
  do st <- full_opt C M t t (h - 1) st;
  do st <- add_consts C ((h - 1 + 1) * t) (map sbox1 st);
  do st <- mix_opt P st;
  do st <- foldM (partial_opt C S t ((h + 1) * t)) (seq 0 np) st;
  do st <- full_opt C M t ((h + 1) * t + np) (h - 1) st;
  mix_opt M (map sbox1 st).

(* poseidon_bn128.rs:69-73 ark *)
Definition ark (c : list A) (it : nat) (st : list A) : res (list A) := add_consts c it st.

(* poseidon_bn128.rs:83-91 sbox *)
Definition sbox (nf np : nat) (st : list A) (i : nat) : res (list A) :=
  if (i <? nf / 2) || (nf / 2 + np <=? i) then Ok (map sbox1 st)
  else match st with [] => Panic | a :: r => Ok (sbox1 a :: r) end.

(* poseidon_bn128.rs:93-104 mix: out[i] = sum_j m[i][j] * state[j] *)
Definition mix (m : list (list A)) (st : list A) : res (list A) :=
  mapM (fun i =>
    foldM (fun acc j => do row <- vget m i; do k <- vget row j; do s <- vget st j; Ok (add acc (mul k s)))
      (seq 0 (length st)) zero)
    (seq 0 (length st)).

(* poseidon_bn128.rs:134-138 *)
Definition permute_ref (nf np : nat) (c : list A) (m : list (list A)) (st : list A) : res (list A) :=
  foldM (fun st i => do st <- ark c (i * length st) st; do st <- sbox nf np st i; mix m st)
    (seq 0 (nf + np)) st.

(* &v[0..out].to_vec() *)
Definition take_out (st : list A) (out : nat) : res (list A) := slice st 0 out.

(* poseidon_bn128.rs:12-19: the tables indexed by t - 2 *)
Record pconsts : Type := mkPC {
  pc_c : list (list A); pc_m : list (list (list A)); pc_p : list (list (list A)); pc_s : list (list A);
  pc_nf : nat; pc_np : list nat
}.

(* poseidon_bn128.rs:117-140 hash_inner *)
Definition hash_ref (k : pconsts) (inp : list A) (init : A) (out : nat) : res (list A) :=
  if (length inp =? 0) || (length (pc_np k) <? length inp) then Err
  else
    let t := length inp + 1 in
    do np <- vget (pc_np k) (t - 2);
    do c <- vget (pc_c k) (t - 2);
    do m <- vget (pc_m k) (t - 2);
    do st <- permute_ref (pc_nf k) np c m (init :: inp);
    take_out st out.

(* poseidon_bn128_opt.rs:103-224 hash_inner *)
Definition hash_opt (k : pconsts) (inp : list A) (init : A) (out : nat) : res (list A) :=
  if (length inp =? 0) || (length (pc_np k) <? length inp) then Err
  else
    let t := length inp + 1 in
    do np <- vget (pc_np k) (t - 2);
    do c <- vget (pc_c k) (t - 2);
    do s <- vget (pc_s k) (t - 2);
    do m <- vget (pc_m k) (t - 2);
    do p <- vget (pc_p k) (t - 2);
    do st <- permute_opt (pc_nf k) np c s m p (init :: inp);
    take_out st out.
End Scalar.

Arguments pc_c {A} _. Arguments pc_m {A} _. Arguments pc_p {A} _. Arguments pc_s {A} _.
Arguments pc_nf {A} _. Arguments pc_np {A} _. Arguments mkPC {A} _ _ _ _ _ _.

(* poseidon_bn128.rs:76-81 pow5: two squarings, then the product with the original value *)
Definition pow5 {A} (mul : A -> A -> A) (x : A) : A :=
  let aux := x in let x := mul x x in let x := mul x x in mul x aux.

(** * Goldilocks *)

(* poseidon_opt.rs:68-74 pow7 *)
Definition pow7 (x : Fr) : Fr :=
  let aux := x in
  let x := fsquare x in let x := fmul x aux in
  let x := fsquare x in fmul x aux.

(* poseidon_opt.rs:12-19; n_rounds_f = 8, n_rounds_p = 22 (line 50) *)
Record glconsts : Type := mkGL { gc : list Fr; gm : list (list Fr); gp : list (list Fr); gs : list Fr }.

(* poseidon_opt.rs:80-200 hash_inner *)
Definition gl_hash (k : glconsts) (inp init : list Fr) (out : nat) : res (list Fr) :=
  if negb (length inp =? 8) then Err
  else if negb (length init =? 4) then Err
  else
    do st <- permute_opt Fr f0 fadd fmul pow7 8 22 (gc k) (gs k) (gm k) (gp k) (inp ++ init);
    take_out Fr st out.

(* poseidon_opt.rs:21-51 load_constants: Fr::from panics on a word not below p *)
Definition gl_load (c : list Z) (m p : list (list Z)) (s : list Z) : res glconsts :=
  let from v := if (v <? MODULUS)%Z then Ok (fof v) else Panic in
  do c <- mapM from c; do m <- mapM (mapM from) m; do p <- mapM (mapM from) p; do s <- mapM from s;
  Ok (mkGL c m p s).

(** * The AVX2 version: three registers of four lanes *)

(* avx2_poseidon_gl.rs:13-20: the same tables as raw words *)
Record avconsts : Type := mkAV { vc : list Z; vm : list Z; vp : list Z; vs : list Z }.

Definition state3 : Type := list Z * list Z * list Z.

(* the registers m[0], m[1], m[2] of a packed slice *)
Definition pack3 (w : nat) (m : list Z) : res state3 :=
  do v <- pack_slice w m;
  do m0 <- vget v 0; do m1 <- vget v 1; do m2 <- vget v 2; Ok (m0, m1, m2).

Section Avx.
(* lanes per register and the register operations: AVX2 or AVX-512 *)
Variable w : nat.
Variables vadd vmul : list Z -> list Z -> list Z.
Variable vsquare : list Z -> list Z.

(* avx2_poseidon_gl.rs:56-65 spmv_avx_4x12; avx512_poseidon_gl.rs:57-66 *)
Definition spmv (st : state3) (m : list Z) : res (list Z) :=
  let '(st0, st1, st2) := st in
  do m <- pack3 w m; let '(m0, m1, m2) := m in
  Ok (vadd (vadd (vmul st0 m0) (vmul st1 m1)) (vmul st2 m2)).

(* avx2_poseidon_gl.rs:78-84 pow7; avx512_poseidon_gl.rs:79-85 *)
Definition vpow7 (x : list Z) : list Z :=
  let aux := x in
  let x := vsquare x in let x := vmul x aux in
  let x := vsquare x in vmul x aux.

(* avx2_poseidon_gl.rs:87-107 pow7_triple; avx512_poseidon_gl.rs:88-108 *)
Definition pow7_triple (st : state3) : state3 :=
  let '(st0, st1, st2) := st in (vpow7 st0, vpow7 st1, vpow7 st2).

(* avx2_poseidon_gl.rs:110-120 add_avx; avx512_poseidon_gl.rs:111-121 *)
Definition add_avx (st : state3) (c : list Z) : res state3 :=
  let '(st0, st1, st2) := st in
  do c <- pack3 w c; let '(c0, c1, c2) := c in
  Ok (vadd st0 c0, vadd st1 c1, vadd st2 c2).

(* avx2_poseidon_gl.rs:123-134 mult_add_avx; avx512_poseidon_gl.rs:124-135 *)
Definition mult_add_avx (st : state3) (s0 : list Z) (s : list Z) : res state3 :=
  let '(st0, st1, st2) := st in
  do s <- pack3 w s; let '(k0, k1, k2) := s in
  Ok (vadd st0 (vmul k0 s0), vadd st1 (vmul k1 s0), vadd st2 (vmul k2 s0)).
End Avx.

(* avx2_poseidon_gl.rs:170-193, 230-253: the rows r0..r3 are transposed and added *)
Definition transpose_add2 (r0 r1 r2 r3 : list Z) : list Z :=
  let t0 := v2_permute_20 r0 r2 in
  let t1 := v2_permute_20 r1 r3 in
  let t2 := v2_permute_31 r0 r2 in
  let t3 := v2_permute_31 r1 r3 in
  let c0 := v2_unpacklo t0 t1 in
  let c1 := v2_unpackhi t0 t1 in
  let c2 := v2_unpacklo t2 t3 in
  let c3 := v2_unpackhi t2 t3 in
  v2_add (v2_add (v2_add c0 c1) c2) c3.

(* avx512_poseidon_gl.rs:172-192, 230-250 *)
Definition transpose_add5 (r0 r1 r2 r3 : list Z) : list Z :=
  let (t0, t2) := v5_interleave2 r0 r2 in
  let (t1, t3) := v5_interleave2 r1 r3 in
  let c0 := v5_unpacklo t0 t1 in
  let c1 := v5_unpackhi t0 t1 in
  let c2 := v5_unpacklo t2 t3 in
  let c3 := v5_unpackhi t2 t3 in
  v5_add (v5_add (v5_add c0 c1) c2) c3.

(* avx2_poseidon_gl.rs:280-313 mult_avx_72: (high, low) of a * b for b below 2^32 *)
Definition mult_72_2 (a b : list Z) : list Z * list Z :=
  let a_h := map (l_srl 32) a in
  let c_hl := map2 l_mul32 a_h b in
  let c_ll := map2 l_mul32 a b in
  let c_ll_h := map (l_srl 32) c_ll in
  let r0 := map2 l_add c_hl c_ll_h in
  let r0_l := map (l_sll 32) r0 in
  (map (l_srl 32) r0, map2 l_blend_aa c_ll r0_l).

(* avx512_poseidon_gl.rs:277-309 mult_avx512_72; the mask 0xAAAA takes the high halves from r0_l *)
Definition mult_72_5 (a b : list Z) : list Z * list Z :=
  let a_h := map l_hdup a in
  let c_hl := map2 l_mul32 a_h b in
  let c_ll := map2 l_mul32 a b in
  let c_ll_h := map (l_srl 32) c_ll in
  let r0 := map2 l_add c_hl c_ll_h in
  let r0_l := map l_ldup r0 in
  (map (l_srl 32) r0, map2 l_blend_aa c_ll r0_l).

Section Avx8.
Variable w : nat.
Variables vadd : list Z -> list Z -> list Z.
Variable vreduce : list Z * list Z -> list Z.
Variable mult_72 : list Z -> list Z -> list Z * list Z.

(* avx2_poseidon_gl.rs:257-277 spmv_avx_4x12_8; avx512_poseidon_gl.rs:254-274 *)
Definition spmv_8 (st : state3) (m : list Z) : res (list Z) :=
  let '(st0, st1, st2) := st in
  do m <- pack3 w m; let '(m0, m1, m2) := m in
  let (c0_h, c0_l) := mult_72 st0 m0 in
  let (c1_h, c1_l) := mult_72 st1 m1 in
  let (c2_h, c2_l) := mult_72 st2 m2 in
  let c_h := vadd (vadd c0_h c1_h) c2_h in
  let c_l := vadd (vadd c0_l c1_l) c2_l in
  Ok (vreduce (c_h, c_l)).
End Avx8.

Section Mmult.
Variable w : nat.
Variable transpose_add : list Z -> list Z -> list Z -> list Z -> list Z.
Variable spmvf : state3 -> list Z -> res (list Z).

(* avx2_poseidon_gl.rs:156-194 mmult_avx_4x12, 216-254 mmult_avx_4x12_8;
   avx512_poseidon_gl.rs:157-193, 215-251 *)
Definition mmult_4x12 (st : state3) (m : list Z) : res (list Z) :=
  do m0 <- slice m 0 (3 * w); do r0 <- spmvf st m0;
  do m1 <- slice m (3 * w) (3 * w); do r1 <- spmvf st m1;
  do m2 <- slice m (6 * w) (3 * w); do r2 <- spmvf st m2;
  do m3 <- slice m (9 * w) (3 * w); do r3 <- spmvf st m3;
  Ok (transpose_add r0 r1 r2 r3).

(* avx2_poseidon_gl.rs:137-152 mmult_avx, 197-212 mmult_avx_8; avx512_poseidon_gl.rs:138-153, 196-211 *)
Definition mmult (st : state3) (p : list Z) : res state3 :=
  do p0 <- slice p 0 (12 * w); do t0 <- mmult_4x12 st p0;
  do p1 <- slice p (12 * w) (12 * w); do t1 <- mmult_4x12 st p1;
  do p2 <- slice p (24 * w) (12 * w); do t2 <- mmult_4x12 st p2;
  Ok (t0, t1, t2).
End Mmult.

(* FGL::from_repr(..).unwrap() as an element *)
Definition from_repr_unwrap (r : Z) : res Fr :=
  match from_repr r with Ok a => Ok (of_word a) | _ => Panic end.
(* into_repr *)
Definition repr (a : Fr) : Z := into_repr (fw a).

Definition spmv2 := spmv 4 v2_add v2_mul.
Definition mmult2 := mmult 4 transpose_add2 spmv2.
Definition mmult2_8 := mmult 4 transpose_add2 (spmv_8 4 v2_add v2_reduce128 mult_72_2).
Definition pow7t2 := pow7_triple v2_mul v2_square.

(* avx2_poseidon_gl.rs:351-355, 401-411: full rounds *)
Definition full2 (C M : list Z) (base n : nat) (st : state3) : res state3 :=
  foldM (fun st r =>
    do c <- slice C (base + r * 12) 12;
    do st <- add_avx 4 v2_add (pow7t2 st) c;
    do m <- slice M 0 144;
    mmult2_8 st m) (seq 0 n) st.

(* tmp_slice[i] as a field element *)
Definition lane_fr (v : list Z) (i : nat) : res Fr := do x <- vget v i; from_repr_unwrap x.
(* the sum of four lanes as field elements: avx2_poseidon_gl.rs:375-378 of the partial round *)
Definition sum4 (v : list Z) (i : nat) : res Fr :=
  do a <- lane_fr v i; do b <- lane_fr v (i + 1); do c <- lane_fr v (i + 2); do d <- lane_fr v (i + 3);
  Ok (fadd (fadd (fadd a b) c) d).

(* avx2_poseidon_gl.rs:360-399: one partial round *)
Definition partial2 (C S : list Z) (st : state3) (r : nat) : res state3 :=
  let '(st0, st1, st2) := st in
  do x <- vget st0 0;
  let _st0 := vpow7 v2_mul v2_square [x; 0; 0; 0]%Z in
  do k <- vget C ((4 + 1) * 12 + r);
  let _st0 := v2_add _st0 [k; 0; 0; 0]%Z in
  do x <- vget _st0 0;
  do st0 <- vset st0 0 x;
  do s <- slice S (12 * 2 * r) 12;
  do tmp <- spmv2 (st0, st1, st2) s;
  do sum <- sum4 tmp 0;
  do s <- slice S (12 * (2 * r + 1)) 12;
  do st <- mult_add_avx 4 v2_add v2_mul (st0, st1, st2) [x; x; x; x] s;
  let '(st0, st1, st2) := st in
  do st0 <- vset st0 0 (repr sum);
  Ok (st0, st1, st2).

(* avx2_poseidon_gl.rs:319-421 hash_inner *)
Definition avx2_hash (k : avconsts) (inp init : list Fr) (out : nat) : res (list Fr) :=
  if negb (length inp =? 8) then Err
  else if negb (length init =? 4) then Err
  else
    let state := map repr (inp ++ init) in
    do st <- pack3 4 state;
    do c <- slice (vc k) 0 12;
    do st <- add_avx 4 v2_add st c;
    do st <- full2 (vc k) (vm k) 12 (8 / 2 - 1) st;
    do c <- slice (vc k) 48 12;
    do st <- add_avx 4 v2_add (pow7t2 st) c;
    do p <- slice (vp k) 0 144;
    do st <- mmult2 st p;
    do st <- foldM (partial2 (vc k) (vs k)) (seq 0 22) st;
    do st <- full2 (vc k) (vm k) ((8 / 2 + 1) * 12 + 22) (8 / 2 - 1) st;
    do m <- slice (vm k) 0 144;
    do st <- mmult2 (pow7t2 st) m;
    let '(st0, _, _) := st in
    do res <- mapM from_repr_unwrap st0;
    take_out Fr res out.

(** * The AVX-512 version: two hashes at once, eight lanes per register *)

Definition spmv5 := spmv 8 v5_add v5_mul.
Definition mmult5 := mmult 8 transpose_add5 spmv5.
Definition mmult5_8 := mmult 8 transpose_add5 (spmv_8 8 v5_add v5_reduce128 mult_72_5).
Definition pow7t5 := pow7_triple v5_mul v5_square.

(* avx512_poseidon_gl.rs:347-351, 430-440: full rounds *)
Definition full5 (C M : list Z) (base n : nat) (st : state3) : res state3 :=
  foldM (fun st r =>
    do c <- slice C (base + r * 24) 24;
    do st <- add_avx 8 v5_add (pow7t5 st) c;
    do m <- slice M 0 288;
    mmult5_8 st m) (seq 0 n) st.

(* avx512_poseidon_gl.rs:357-428: one partial round *)
Definition partial5 (C S : list Z) (st : state3) (r : nat) : res state3 :=
  let '(st0, st1, st2) := st in
  do x <- vget st0 0; do y <- vget st0 4;
  let _st0 := vpow7 v5_mul v5_square [x; 0; 0; 0; y; 0; 0; 0]%Z in
  do k <- vget C ((4 + 1) * 24 + r);
  let _st0 := v5_add _st0 [k; 0; 0; 0; k; 0; 0; 0]%Z in
  do x <- vget _st0 0; do y <- vget _st0 4;
  do st0 <- vset st0 0 x; do st0 <- vset st0 4 y;
  do s <- slice S (24 * 2 * r) 24;
  do tmp <- spmv5 (st0, st1, st2) s;
  do sum0 <- sum4 tmp 0; do sum1 <- sum4 tmp 4;
  do s <- slice S (24 * (2 * r + 1)) 24;
  do st <- mult_add_avx 8 v5_add v5_mul (st0, st1, st2) [x; x; x; x; y; y; y; y] s;
  let '(st0, st1, st2) := st in
  do st0 <- vset st0 0 (repr sum0); do st0 <- vset st0 4 (repr sum1);
  Ok (st0, st1, st2).

(* avx512_poseidon_gl.rs:315-450 hash_inner; t = 24 *)
Definition avx512_hash (k : avconsts) (inp init : list Fr) (out : nat) : res (list Fr) :=
  if negb (length inp =? 16) then Err
  else if negb (length init =? 8) then Err
  else
    let state := map repr (inp ++ init) in
    do st <- pack3 8 state;
    do c <- slice (vc k) 0 24;
    do st <- add_avx 8 v5_add st c;
    do st <- full5 (vc k) (vm k) 24 (8 / 2 - 1) st;
    do c <- slice (vc k) 96 24;
    do st <- add_avx 8 v5_add (pow7t5 st) c;
    do p <- slice (vp k) 0 288;
    do st <- mmult5 st p;
    do st <- foldM (partial5 (vc k) (vs k)) (seq 0 22) st;
    do st <- full5 (vc k) (vm k) ((8 / 2 + 1) * 24 + 22) (8 / 2 - 1) st;
    do m <- slice (vm k) 0 288;
    do st <- mmult5 (pow7t5 st) m;
    let '(st0, _, _) := st in
    do res <- mapM from_repr_unwrap st0;
    take_out Fr res out.
