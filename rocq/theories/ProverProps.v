(* C18, C44, C45, C61: column helpers of the prover. [val] maps an element of the extension to the cubic
   field K, [kpow x n] is the n-th power in K and [kconst] embeds the base field. *)
From Coq Require Import Permutation.
From Verif Require Import Base GlModel FrField F3gModel Cubic F3gProof ListAux PolyModel ProverModel ProverProof.
Open Scope nat_scope.
Open Scope res_scope.

(* C18: times x^N - 1 at x = 49 * w^(i + offset), N = 2^nbits, w the root of order 2^(nbits + ext) *)
Theorem C18_zh_inverse : forall nbits ext offset i, nbits + ext <= 32 ->
  exists w z, MG (nbits + ext) = Ok w /\ build_Zh_Inv nbits ext offset i = Ok z /\
    kmul (val z) (ksub (kpow (kmul (kconst SHIFT) (kpow (kconst w) (i + offset))) (2 ^ nbits)) kone) = kone.
Proof. exact zh_inv_spec. Qed.
Print Assumptions C18_zh_inverse.

(* four base rows, blow-up two: rows 2 apart share an entry, neighbours do not *)
Example C18_nonvacuous :
  (do a <- build_Zh_Inv 2 1 0 1; do b <- build_Zh_Inv 2 1 2 3; do c <- build_Zh_Inv 2 1 0 2;
   Ok (e_eqb a b, e_eqb a c)) = Ok (true, false).
Proof. vm_compute. reflexivity. Qed.

(* C44: s lists t in its order, every entry repeated in place, and has the elements of t and f *)
Theorem C44_sorted_columns : forall f t h1 h2, calculate_H1H2 f t = Ok (h1, h2) ->
  length h1 = length f /\ length h2 = length f /\ length f <= length t /\ incl f t /\
  exists s counts, length counts = length t /\
    s = concat (map (fun p => repeat (fst p) (S (snd p))) (combine t counts)) /\
    Permutation s (t ++ f) /\
    flat_map (fun p => [fst p; snd p]) (combine h1 h2) = firstn (2 * length f) s.
Proof. exact h1h2_spec. Qed.
Print Assumptions C44_sorted_columns.

Theorem C44_exists : forall f t, incl f t -> length f <= length t -> exists h1 h2, calculate_H1H2 f t = Ok (h1, h2).
Proof. exact h1h2_total. Qed.
Print Assumptions C44_exists.

Theorem C44_absent_refused : forall f t, ~ incl f t -> calculate_H1H2 f t = Panic.
Proof. exact h1h2_refuses. Qed.
Print Assumptions C44_absent_refused.

(* a table with a repeated entry *)
Example C44_nonvacuous :
  (do h <- calculate_H1H2 (map (fun z => e_from (fof z)) [7; 5; 7; 9]%Z) (map (fun z => e_from (fof z)) [7; 9; 5; 9]%Z);
   Ok (map (fun e => fint (c0 e)) (fst h), map (fun e => fint (c0 e)) (snd h))) = Ok ([7; 7; 5; 9]%Z, [7; 9; 5; 9]%Z).
Proof. vm_compute. reflexivity. Qed.

(* C45 *)
Theorem C45_grand_product : forall num den z : list F3G, calculate_Z num den = Ok z ->
  length z = length num /\ val (nth 0 z e_ZERO) = kone /\
  forall i, i < length num ->
    kmul (val (nth ((i + 1) mod length num) z e_ZERO)) (val (nth i den e_ZERO)) =
    kmul (val (nth i z e_ZERO)) (val (nth i num e_ZERO)).
Proof. exact calculate_Z_spec. Qed.
Print Assumptions C45_grand_product.

(* accepted exactly when the products agree and no denominator is zero *)
Theorem C45_accepted_iff : forall num den : list F3G,
  (exists z, calculate_Z num den = Ok z) <->
  length num = length den /\ num <> [] /\ Forall (fun x => val x <> kzero) den /\
  fold_right kmul kone (map val num) = fold_right kmul kone (map val den).
Proof. exact calculate_Z_iff'. Qed.
Print Assumptions C45_accepted_iff.

Example C45_nonvacuous :
  (do z <- calculate_Z (map (fun z => e_from (fof z)) [2; 3; 35]%Z) (map (fun z => e_from (fof z)) [5; 6; 7]%Z);
   Ok (map (fun e => fint (fmul (fof 5) (c0 e))) z)) = Ok [5; 2; 1]%Z /\
  calculate_Z (map (fun z => e_from (fof z)) [2; 3; 36]%Z) (map (fun z => e_from (fof z)) [5; 6; 7]%Z) = Panic.
Proof. split; vm_compute; reflexivity. Qed.

(* C61: q is any other polynomial of the section whose columns are disjoint from those of p *)
Theorem C61_columns_round_trip : forall p v buf, p_dim p = 1 \/ p_dim p = 3 -> p_offset p + p_dim p <= p_size p ->
  p_deg p <= length v -> p_deg p * p_size p <= length buf ->
  exists buf' r, set_pol p v buf = Ok buf' /\ length buf' = length buf /\ get_pol p buf' = Ok r /\
    map val r = map val (firstn (p_deg p) v) /\
    (forall q, p_size q = p_size p -> p_deg q = p_deg p -> p_dim q = 1 \/ p_dim q = 3 -> p_offset q + p_dim q <= p_size q ->
      p_offset q + p_dim q <= p_offset p \/ p_offset p + p_dim p <= p_offset q -> get_pol q buf' = get_pol q buf).
Proof. exact set_get_pol. Qed.
Print Assumptions C61_columns_round_trip.

(* two rows of four columns: a base field element is written into a column of width three *)
Example C61_nonvacuous :
  (do b <- set_pol (mkPol 2 1 4 3) [e_from (fof 8); e_new (fof 5) (fof 6) (fof 7)] (repeat (e_from (fof 9)) 8);
   do g <- get_pol (mkPol 2 1 4 3) b;
   Ok (map (fun e => fint (c0 e)) b, map (fun e => map fint [c0 e; c1 e; c2 e]) g)) =
  Ok ([9; 8; 0; 0; 9; 5; 6; 7]%Z, [[8; 0; 0]; [5; 6; 7]]%Z).
Proof. vm_compute. reflexivity. Qed.
