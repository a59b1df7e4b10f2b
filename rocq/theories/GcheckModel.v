(* Model of which comparisons the two circuit generators write (starky/src/stark_verifier_circom.rs and
   stark_verifier_circom_onchain.rs, the sections "Checks" and "Check Degree last pol" of StarkVerifier) and which the Rust verifier
   makes. A comparison is named by what it compares; whether its two sides agree is left open. Every comparison of the circuits is
   multiplied by enable, taken as 1 here. *)
From Verif Require Import Base.
Open Scope nat_scope.

(* the trees opened at a query; TrC holds the constants *)
Inductive tree : Type := Tr1 | Tr2 | Tr3 | Tr4 | TrC.
Inductive check : Type :=
| CkRoot (t : tree) (q j : nat)      (* element j of the root computed from opening q of tree t, with the root in the proof *)
| CkQuery (q e : nat)                (* coordinate e of the polynomial computed at query q, with the next opened group or the last polynomial *)
| CkFold (s q e : nat)               (* the same for the value folded in step s *)
| CkStepRoot (s q j : nat)           (* the root computed from opening q of step s *)
| CkLast (k e : nat).                (* coefficient k of the last polynomial, with 0 *)

(* the fields of StarkStruct and StarkInfo used: the number of steps, nQueries, the widths of cm2_2ns and cm3_2ns, and the bits
   nLastBits and nBitsExt - nBits *)
Record gstruct : Type := mkGS { gs_steps : nat; gs_queries : nat; gs_cm2 : nat; gs_cm3 : nat; gs_last : nat; gs_blowup : nat }.
Definition upto {A} (n : nat) (f : nat -> list A) : list A := flat_map f (seq 0 n).
(* the steps 1..steps.len() *)
Definition gs_later (g : gstruct) : list nat := seq 1 (gs_steps g - 1).
(* stark_verifier_circom.rs:1469-1500, stark_verifier_circom_onchain.rs:1557-1588: coefficients from 1 << maxDegBits on. A negative
   maxDegBits panics in the generator; it is not met by the theorems. *)
Definition last_checks (g : gstruct) : list check :=
  let d := 2 ^ (gs_last g - gs_blowup g) in
  flat_map (fun k => map (CkLast k) [0; 1; 2]) (seq d (2 ^ gs_last g - d)).
(* stark_verifier_circom.rs:1425-1454: the trees compared; the second and third only if they have columns *)
Definition opened (g : gstruct) : list tree :=
  [Tr1] ++ (if 0 <? gs_cm2 g then [Tr2] else []) ++ (if 0 <? gs_cm3 g then [Tr3] else []) ++ [Tr4; TrC].
(* lines 1285-1467: the loop over the steps writes, for each query, all comparisons of step 0 in an inner loop over the queries (its
   variable hides the outer one), and then those of the step *)
Definition gl_checks (g : gstruct) : list check :=
  flat_map (fun s => upto (gs_queries g) (fun q =>
    upto (gs_queries g) (fun q' => upto 4 (fun j => map (fun t => CkRoot t q' j) (opened g)) ++ upto 3 (fun e => [CkQuery q' e])) ++
    upto 3 (fun e => [CkFold s q e]) ++ upto 4 (fun j => [CkStepRoot s q j]))) (gs_later g) ++ last_checks g.
(* stark_verifier_circom_onchain.rs:1512-1555; a root is one element *)
Definition oc_checks (g : gstruct) : list check :=
  upto (gs_queries g) (fun q => map (fun t => CkRoot t q 0) (opened g) ++ upto 3 (fun e => [CkQuery q e])) ++
  flat_map (fun s => upto (gs_queries g) (fun q => upto 3 (fun e => [CkFold s q e]) ++ [CkStepRoot s q 0])) (gs_later g) ++
  last_checks g.
(* stark_verify.rs:87-107 and fri.rs:231-294: what the verifier compares, with roots of [w] elements. The group proofs of all five
   trees are verified whatever their width; the last polynomial is checked from max_deg + 1 on. *)
Definition v_checks (w : nat) (g : gstruct) : list check :=
  upto (gs_queries g) (fun q => upto w (fun j => map (fun t => CkRoot t q j) [Tr1; Tr2; Tr3; Tr4; TrC]) ++ upto 3 (fun e => [CkQuery q e])) ++
  flat_map (fun s => upto (gs_queries g) (fun q => upto w (fun j => [CkStepRoot s q j]) ++ upto 3 (fun e => [CkFold s q e]))) (gs_later g) ++
  let d := 2 ^ (gs_last g - gs_blowup g) in
  flat_map (fun k => map (CkLast k) [0; 1; 2]) (seq (d + 1) (2 ^ gs_last g - (d + 1))).
(* a circuit or verifier accepts if all its comparisons agree *)
Definition accepts (agree : check -> Prop) (l : list check) : Prop := Forall agree l.
