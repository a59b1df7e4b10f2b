(* The Poseidon hash over the scalar field of BN254 with the constants of the source:
   starky/src/poseidon_bn128.rs and starky/src/poseidon_bn128_opt.rs. *)
From Verif Require Import Base HashModel PosModel ZqField BnTabA BnTabB BnTabC BnTabD.
Open Scope nat_scope.
Open Scope res_scope.

(* field_bn128.rs:12-15 PrimeFieldModulus *)
Definition bn_r : Z := 21888242871839275222246405745257275088548364400416034343698204186575808495617%Z.
Notation BnFr := (Zq bn_r) (only parsing).

(* the tables in the order of the source: poseidon_bn128_constants.rs:2 and 10891,
   poseidon_bn128_constants_opt.rs:8, 2250, 4372 and 6494 *)
Definition bn_c_str : list (list Z) :=
  [bn_c2; bn_c3; bn_c4; bn_c5; bn_c6; bn_c7; bn_c8; bn_c9; bn_c10; bn_c11; bn_c12; bn_c13; bn_c14; bn_c15; bn_c16; bn_c17].
Definition bn_m_str : list (list (list Z)) :=
  [bn_m2; bn_m3; bn_m4; bn_m5; bn_m6; bn_m7; bn_m8; bn_m9; bn_m10; bn_m11; bn_m12; bn_m13; bn_m14; bn_m15; bn_m16; bn_m17].
Definition bn_C_str : list (list Z) :=
  [bn_C2; bn_C3; bn_C4; bn_C5; bn_C6; bn_C7; bn_C8; bn_C9; bn_C10; bn_C11; bn_C12; bn_C13; bn_C14; bn_C15; bn_C16; bn_C17].
Definition bn_M_str : list (list (list Z)) :=
  [bn_M2; bn_M3; bn_M4; bn_M5; bn_M6; bn_M7; bn_M8; bn_M9; bn_M10; bn_M11; bn_M12; bn_M13; bn_M14; bn_M15; bn_M16; bn_M17].
Definition bn_P_str : list (list (list Z)) :=
  [bn_P2; bn_P3; bn_P4; bn_P5; bn_P6; bn_P7; bn_P8; bn_P9; bn_P10; bn_P11; bn_P12; bn_P13; bn_P14; bn_P15; bn_P16; bn_P17].
Definition bn_S_str : list (list Z) :=
  [bn_S2; bn_S3; bn_S4; bn_S5; bn_S6; bn_S7; bn_S8; bn_S9; bn_S10; bn_S11; bn_S12; bn_S13; bn_S14; bn_S15; bn_S16; bn_S17].

(* from_hex(s).unwrap(): ff's from_hex ends in from_repr, which refuses what is not below the modulus *)
Definition from_hex (q : Z) (v : Z) : res (Zq q) := if (v <? q)%Z then Ok (zq_of q v) else Panic.
Definition load1 (q : Z) (l : list Z) : res (list (Zq q)) := mapM (from_hex q) l.
Definition load2 (q : Z) (m : list (list Z)) : res (list (list (Zq q))) := mapM (load1 q) m.

(* poseidon_bn128.rs:51 and poseidon_bn128_opt.rs:64: n_rounds_p *)
Definition bn_rounds_p : list nat := [56; 57; 56; 60; 60; 63; 64; 63; 60; 66; 60; 65; 70; 60; 64; 68].

(* poseidon_bn128.rs:21-53 load_constants *)
Definition bn_load : res (pconsts BnFr) :=
  do c <- mapM (load1 bn_r) bn_c_str;
  do m <- mapM (load2 bn_r) bn_m_str;
  Ok (mkPC c m [] [] 8 bn_rounds_p).

(* poseidon_bn128_opt.rs:11-66 load_constants *)
Definition bn_load_opt : res (pconsts BnFr) :=
  do c <- mapM (load1 bn_r) bn_C_str;
  do m <- mapM (load2 bn_r) bn_M_str;
  do p <- mapM (load2 bn_r) bn_P_str;
  do s <- mapM (load1 bn_r) bn_S_str;
  Ok (mkPC c m p s 8 bn_rounds_p).

(* poseidon_bn128.rs:113-115 hash_ex; the constants are a lazy_static, so a failing load panics here *)
Definition bn_hash_ex (inp : list BnFr) (init : BnFr) (out : nat) : res (list BnFr) :=
  do k <- bn_load; hash_ref BnFr (zq_of bn_r 0) q_add q_mul (pow5 q_mul) k inp init out.
(* poseidon_bn128.rs:108-111 hash *)
Definition bn_hash (inp : list BnFr) (init : BnFr) : res BnFr :=
  do r <- bn_hash_ex inp init 1; vget r 0.
(* poseidon_bn128_opt.rs:99-101 hash_ex *)
Definition bn_opt_hash_ex (inp : list BnFr) (init : BnFr) (out : nat) : res (list BnFr) :=
  do k <- bn_load_opt; hash_opt BnFr (zq_of bn_r 0) q_add q_mul (pow5 q_mul) k inp init out.
(* poseidon_bn128_opt.rs:94-97 hash *)
Definition bn_opt_hash (inp : list BnFr) (init : BnFr) : res BnFr :=
  do r <- bn_opt_hash_ex inp init 1; vget r 0.

(** * BLS12-381: the same functions with other constants *)

(* field_bls12381.rs:12-14 PrimeFieldModulus *)
Definition bls_r : Z := 52435875175126190479447740508185965837690552500527637822603658699938581184513%Z.
Notation BlsFr := (Zq bls_r) (only parsing).
(* poseidon_bls12381.rs:51 and poseidon_bls12381_opt.rs:67 *)
Definition bls_rounds_p : list nat := [56; 57; 56; 60; 60; 63; 64; 63; 60; 66; 60; 65; 70; 60; 64; 68].
Definition bls_opt_rounds_p : list nat := [55; 55; 56; 56; 56; 56; 57; 57; 57; 57; 57; 57; 57; 57; 59; 59].
(* poseidon_bls12381.rs:104-107 hash *)
Definition bls_hash (k : pconsts BlsFr) (inp : list BlsFr) (init : BlsFr) : res BlsFr :=
  do r <- hash_ref BlsFr (zq_of bls_r 0) q_add q_mul (pow5 q_mul) k inp init 1; vget r 0.
(* poseidon_bls12381_opt.rs:95-103 hash: the second word of two *)
Definition bls_opt_hash (k : pconsts BlsFr) (inp : list BlsFr) (init : BlsFr) : res BlsFr :=
  do r <- hash_opt BlsFr (zq_of bls_r 0) q_add q_mul (pow5 q_mul) k inp init 2; vget r 1.
