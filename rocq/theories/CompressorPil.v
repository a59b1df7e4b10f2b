(* Model of recursion/src/compressor12/compressor12_pil.rs render: the identities of the rendered PIL
   program. Each is an expression that must vanish on every row; [a] and [C] are the committed and
   constant columns of the row, [a'] the committed columns of the next row (cyclically). *)
From Verif Require Import Base GlModel FrField CompressorModel.
Open Scope nat_scope.

Local Notation "x *' y" := (fmul x y) (at level 40, left associativity).
Local Notation "x +' y" := (fadd x y) (at level 50, left associativity).
Local Notation "x -' y" := (fsub x y) (at level 50, left associativity).

(* compressor12_pil.rs:106-125 *)
Definition pil_gate (G : Fr) (C a : nat -> Fr) : list Fr :=
  [ (C 3 *' (a 0 *' a 1) +' C 0 *' a 0 +' C 1 *' a 1 +' C 2 *' a 2 +' C 4) *' G;
    (C 3 *' (a 3 *' a 4) +' C 0 *' a 3 +' C 1 *' a 4 +' C 2 *' a 5 +' C 4) *' G;
    (C 9 *' (a 6 *' a 7) +' C 6 *' a 6 +' C 7 *' a 7 +' C 8 *' a 8 +' C 10) *' G;
    (C 9 *' (a 9 *' a 10) +' C 6 *' a 9 +' C 7 *' a 10 +' C 8 *' a 11 +' C 10) *' G ].

(* compressor12_pil.rs:131-170: a_i_R *)
Definition pil_sbox (PARTIAL : Fr) (C a : nat -> Fr) (i : nat) : Fr :=
  let x1 := a i +' C i in let x2 := x1 *' x1 in let x4 := x2 *' x2 in let x6 := x4 *' x2 in let x7 := x6 *' x1 in
  if i =? 0 then x7 else PARTIAL *' (x1 -' x7) +' x7.
(* compressor12_pil.rs:174-185: the rows of the matrix *)
Definition pil_mds : list (list Z) :=
  [ [25; 15; 41; 16;  2; 28; 13; 13; 39; 18; 34; 20];
    [20; 17; 15; 41; 16;  2; 28; 13; 13; 39; 18; 34];
    [34; 20; 17; 15; 41; 16;  2; 28; 13; 13; 39; 18];
    [18; 34; 20; 17; 15; 41; 16;  2; 28; 13; 13; 39];
    [39; 18; 34; 20; 17; 15; 41; 16;  2; 28; 13; 13];
    [13; 39; 18; 34; 20; 17; 15; 41; 16;  2; 28; 13];
    [13; 13; 39; 18; 34; 20; 17; 15; 41; 16;  2; 28];
    [28; 13; 13; 39; 18; 34; 20; 17; 15; 41; 16;  2];
    [ 2; 28; 13; 13; 39; 18; 34; 20; 17; 15; 41; 16];
    [16;  2; 28; 13; 13; 39; 18; 34; 20; 17; 15; 41];
    [41; 16;  2; 28; 13; 13; 39; 18; 34; 20; 17; 15];
    [15; 41; 16;  2; 28; 13; 13; 39; 18; 34; 20; 17] ]%Z.
Fixpoint pil_lin (row : list Z) (j : nat) (x : nat -> Fr) : Fr :=
  match row with
  | [] => f0
  | [m] => fof m *' x j
  | m :: r => fof m *' x j +' pil_lin r (S j) x
  end.
Definition pil_poseidon (P PARTIAL : Fr) (C a a' : nat -> Fr) : list Fr :=
  map (fun ir => P *' (a' (fst ir) -' pil_lin (snd ir) 0 (pil_sbox PARTIAL C a))) (combine (seq 0 12) pil_mds).

(* compressor12_pil.rs:188-211 *)
Definition pil_cmuladd (M : Fr) (C a : nat -> Fr) : list Fr :=
  let ca0 := (a 0 +' C 0) *' C 9 in let ca1 := (a 1 +' C 1) *' C 9 in let ca2 := (a 2 +' C 2) *' C 9 in
  let ca3 := a 3 +' C 3 in let ca4 := a 4 +' C 4 in let ca5 := a 5 +' C 5 in
  let ca6 := (a 6 +' C 6) *' C 10 in let ca7 := (a 7 +' C 7) *' C 10 in let ca8 := (a 8 +' C 8) *' C 10 in
  let cA := (ca0 +' ca1) *' (ca3 +' ca4) in let cB := (ca0 +' ca2) *' (ca3 +' ca5) in let cC := (ca1 +' ca2) *' (ca4 +' ca5) in
  let cD := ca0 *' ca3 in let cE := ca1 *' ca4 in let cF := ca2 *' ca5 in
  [ M *' (a 9 -' (cC +' cD -' cE -' cF) -' ca6);
    M *' (a 10 -' (cA +' cC -' fof 2 *' cE -' cD) -' ca7);
    M *' (a 11 -' (cB -' cD +' cE) -' ca8) ].

(* compressor12_pil.rs:215-242 *)
Definition pil_fft4 (F : Fr) (C a a' : nat -> Fr) : list Fr :=
  let g0 j := C 0 *' a j +' C 1 *' a (3 + j) +' C 2 *' a (6 + j) +' C 3 *' a (9 + j) +' C 6 *' a j +' C 7 *' a (3 + j) in
  let g3 j := C 0 *' a j -' C 1 *' a (3 + j) +' C 4 *' a (6 + j) -' C 5 *' a (9 + j) +' C 6 *' a j -' C 7 *' a (3 + j) in
  let g6 j := C 0 *' a j +' C 1 *' a (3 + j) -' C 2 *' a (6 + j) -' C 3 *' a (9 + j) +' C 6 *' a (6 + j) +' C 8 *' a (9 + j) in
  let g9 j := C 0 *' a j -' C 1 *' a (3 + j) -' C 4 *' a (6 + j) +' C 5 *' a (9 + j) +' C 6 *' a (6 + j) -' C 8 *' a (9 + j) in
  [ F *' (a' 0 -' g0 0); F *' (a' 1 -' g0 1); F *' (a' 2 -' g0 2);
    F *' (a' 3 -' g3 0); F *' (a' 4 -' g3 1); F *' (a' 5 -' g3 2);
    F *' (a' 6 -' g6 0); F *' (a' 7 -' g6 1); F *' (a' 8 -' g6 2);
    F *' (a' 9 -' g9 0); F *' (a' 10 -' g9 1); F *' (a' 11 -' g9 2) ].

(* compressor12_pil.rs:248-331 the closure c_mul_add *)
Definition pil_cma (x y z : Fr * Fr * Fr) : Fr * Fr * Fr :=
  let '(a0, a1, a2) := x in let '(b0, b1, b2) := y in let '(c0, c1, c2) := z in
  let A := (a0 +' a1) *' (b0 +' b1) in let B := (a0 +' a2) *' (b0 +' b2) in let CC := (a1 +' a2) *' (b1 +' b2) in
  let D := a0 *' b0 in let E := a1 *' b1 in let F := a2 *' b2 in
  (CC +' D -' E -' F +' c0, A +' CC -' fof 2 *' E -' D +' c1, B -' D +' E +' c2).
Definition tri (a : nat -> Fr) (j : nat) : Fr * Fr * Fr := (a j, a (j + 1), a (j + 2)).
(* compressor12_pil.rs:333-356 *)
Definition pil_evpol (E : Fr) (a a' : nat -> Fr) : list Fr :=
  let acc1 := pil_cma (tri a' 0) (tri a' 3) (tri a 9) in
  let acc2 := pil_cma acc1 (tri a' 3) (tri a 6) in
  let acc3 := pil_cma acc2 (tri a' 3) (tri a 3) in
  let '(r0, r1, r2) := pil_cma acc3 (tri a' 3) (tri a 0) in
  [ E *' (a' 6 -' r0); E *' (a' 7 -' r1); E *' (a' 8 -' r2) ].

(* all identities of row q of a program with N rows *)
Definition pil_row (t : tables) (N : nat) (a : grid Fr) (q : nat) : list Fr :=
  let C c := cm t c q in let x c := a c q in let x' c := a c ((q + 1) mod N) in let s n := sel t n q in
  pil_gate (s GATE) C x ++ pil_poseidon (s POSEIDON12) (s PARTIAL) C x x' ++ pil_cmuladd (s CMULADD) C x ++
  pil_fft4 (s FFT4) C x x' ++ pil_evpol (s EVPOL4) x x'.
