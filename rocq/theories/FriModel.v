(* Model of starky/src/fri.rs over the cubic extension, with the Goldilocks Merkle tree and transcript.
   Shifts by more than 63 bits do not occur: the root table is indexed with the same numbers. *)
From Verif Require Import Base GlModel FrField F3gModel PolyModel HashModel.
Open Scope nat_scope.
Open Scope res_scope.

(* lines 23-26: an opened group is a row of words and a Merkle path *)
Definition opening := (list Fr * list (list Fr))%type.
Record query : Type := mkQ { q_openings : list (list opening); q_root : list Fr }.
(* lines 59-63 *)
Record friproof : Type := mkFP { fp_queries : list query; fp_last : list F3G }.

(* iter().zip(..).map(eq).all(|x| x) *)
Fixpoint zip_all {A} (eqb : A -> A -> bool) (l m : list A) : bool :=
  match l, m with x :: l', y :: m' => eqb x y && zip_all eqb l' m' | _, _ => true end.
(* lines 29-57 PartialEq for Query. Roots and rows are compared with the derived equality. *)
Definition opening_eqb (a b : opening) : bool :=
  list_eqb (fst a) (fst b) && zip_all (zip_all feqb) (snd a) (snd b).
Definition query_eqb (a b : query) : bool :=
  list_eqb (q_root a) (q_root b) && zip_all (zip_all opening_eqb) (q_openings a) (q_openings b).

(* lines 141-144: shift_inv = shift_inv * shift_inv, n times *)
Fixpoint esqn (n : nat) (x : F3G) : F3G := match n with O => x | S k => esqn k (e_mul x x) end.

(* lines 113-121: one folded value; [rows] are the positions i*pol2_n + g *)
Definition fold_one (pol : list F3G) (n_x pol2_n g : nat) (sinv special_x : F3G) : res F3G :=
  do ppar <- mapM (fun i => vget pol (i * pol2_n + g)) (seq 0 n_x);
  do c <- ifft (F := opsE) ppar;
  Ok (eval_pol (F := opsE) (pol_mul_axi (F := opsE) c e_ONE sinv) special_x).
(* lines 109-123: the loop over g; sinv advances with every g *)
Fixpoint fold_from (cnt g : nat) (pol : list F3G) (n_x pol2_n : nat) (sinv wi special_x : F3G) : res (list F3G) :=
  match cnt with
  | O => Ok []
  | S c =>
      do v <- fold_one pol n_x pol2_n g sinv special_x;
      do r <- fold_from c (S g) pol n_x pol2_n (e_mul sinv wi) wi special_x;
      Ok (v :: r)
  end.
(* lines 98-123: the folded layer of 2^b values. For the first step the values are copied. A step larger
   than the current layer divides by zero. *)
Definition fold_layer (first : bool) (pol : list F3G) (pol_bits b : nat) (shift_inv special_x : F3G) : res (list F3G) :=
  if pol_bits <? b then Panic else
  let pol2_n := 2 ^ b in
  let n_x := length pol / pol2_n in
  if n_x =? 0 then Panic else
  do g <- MG pol_bits;
  if first then mapM (vget pol) (seq 0 (length pol / n_x))
  else fold_from (length pol / n_x) 0 pol n_x pol2_n shift_inv (e_inv (e_from g)) special_x.

(* lines 299-317 get_transposed_buffer: row i of w holds the h values j*w + i *)
Definition three_words (e : F3G) : res (list Fr) := if d3 e then Ok [c0 e; c1 e; c2 e] else Panic.
Definition transposed (pol : list F3G) (bits : nat) : res (list Fr) :=
  let w := 2 ^ bits in
  let h := length pol / w in
  do rows <- mapM (fun i => do r <- mapM (fun j => do e <- vget pol (j * w + i); three_words e) (seq 0 h); Ok (concat r)) (seq 0 w);
  (* res has 3*n words; those beyond 3*w*h stay zero *)
  Ok (concat rows ++ repeat f0 (3 * length pol - 3 * (w * h))).
(* lines 320-322 get3, 325-331 split3 *)
Definition get3 (arr : list Fr) (idx : nat) : res F3G :=
  do a <- vget arr (idx * 3); do b <- vget arr (idx * 3 + 1); do c <- vget arr (idx * 3 + 2); Ok (e_new a b c).
Fixpoint split3 (arr : list Fr) : res (list F3G) :=
  match arr with
  | [] => Ok []
  | a :: b :: c :: r => do l <- split3 r; Ok (e_new a b c :: l)
  | _ => Panic
  end.

Section Fri.
Variable perm : list Fr -> list Fr -> list Fr.

(* transcript.rs:47-52 get_field builds the element from three words *)
Definition get_challenge (t : transcript) : res (F3G * transcript) :=
  do x <- get_field perm t; let '(a, b, c, t') := x in Ok (e_new a b c, t').
(* lines 134-138, 205-212: the last layer is absorbed word by word; elems[1] of a base element panics *)
Definition put_last (t : transcript) (l : list F3G) : res transcript :=
  do ws <- mapM three_words l;
  put perm t (map (fun x => [x]) (concat ws)).

(* lines 97-146, the commit phase *)
Fixpoint fri_commit (workers : nat) (steps : list nat) (first : bool) (t : transcript) (pol : list F3G) (pol_bits : nat)
    (shift_inv : F3G) : res (list tree * list F3G * transcript) :=
  match steps with
  | [] => Ok ([], pol, t)
  | b :: rest =>
      do xt <- get_challenge t;
      let '(x, t1) := xt in
      do pol2 <- fold_layer first pol pol_bits b shift_inv x;
      match rest with
      | [] => do t2 <- put_last t1 pol2; Ok ([], pol2, t2)
      | b2 :: _ =>
          if b <? b2 then Panic (* group_size 0: the tree is asked for rows of no words *) else
          do buf <- transposed pol2 b2;
          do tr <- merkelize perm workers buf (3 * (2 ^ b / 2 ^ b2)) (2 ^ b2);
          do root <- tree_root tr;
          do t2 <- put perm t1 [root];
          do r <- fri_commit workers rest false t2 pol2 b (esqn (pol_bits - b) shift_inv);
          let '(trs, last, t3) := r in
          Ok (tr :: trs, last, t3)
      end
  end.

(* lines 162-179, the query phase; the positions of step si are reduced modulo 2^steps[si] *)
Definition reduce_ys (ys : list nat) (b : nat) : list nat := map (fun y => y mod 2 ^ b) ys.
Fixpoint open_trees (trs : list tree) (steps : list nat) (ys : list nat) : res (list query) :=
  match trs, steps with
  | [], _ => Ok []
  | tr :: trs', b :: steps' =>
      let ys := reduce_ys ys b in
      do os <- mapM (fun y => do o <- unwrap (get_group_proof tr y); Ok [o]) ys;
      do root <- tree_root tr;
      do qs <- open_trees trs' steps' ys;
      Ok (mkQ os root :: qs)
  | _, [] => Panic
  end.

(* lines 84-184 prove; the root of the first query stays the default *)
Definition fri_prove (workers in_nbits n_queries : nat) (steps : list nat) (t : transcript) (pol : list F3G)
    (query_pol : nat -> list opening) : res (friproof * transcript) :=
  let pol_bits := Z.to_nat (log2_any (Z.of_nat (length pol))) in
  if negb (length pol =? 2 ^ pol_bits) then Panic
  else if negb (pol_bits =? in_nbits) then Panic
  else
    do r <- fri_commit workers steps true t pol pol_bits (e_from SHIFT_INV);
    let '(trs, last, t1) := r in
    match steps with
    | [] => Panic
    | b0 :: steps' =>
        do yt <- get_permutations perm t1 n_queries b0;
        let ys := map Z.to_nat (fst yt) in
        do qs <- open_trees trs steps' ys;
        Ok (mkFP (mkQ (map query_pol ys) zero4 :: qs) last, snd yt)
    end.

(* lines 196-213: the verifier's challenges *)
Fixpoint v_challenges (steps : list nat) (t : transcript) (qs : list query) (last : list F3G) : res (list F3G * transcript) :=
  match steps with
  | [] => Ok ([], t)
  | _ :: rest =>
      do xt <- get_challenge t;
      let '(x, t1) := xt in
      match rest with
      | [] => do t2 <- put_last t1 last; Ok ([x], t2)
      | _ =>
          do q <- vget qs 1;
          do t2 <- put perm t1 [q_root q];
          do r <- v_challenges rest t2 (tl qs) last;
          Ok (x :: fst r, snd r)
      end
  end.

(* lines 218-231 check_query_fn *)
Definition check_opening (root : list Fr) (o : list opening) (idx : nat) : res (list F3G) :=
  do q0 <- vget o 0;
  do ok <- verify_group_proof perm root (snd q0) idx (fst q0);
  if ok then split3 (fst q0) else Err.

(* lines 248-250: the value recomputed from an opened group at position y *)
Definition fold_check (pgroup : list F3G) (pol_bits y : nat) (shift special_x : F3G) : res F3G :=
  do c <- ifft (F := opsE) pgroup;
  do g <- MG pol_bits;
  let sinv := e_inv (e_mul shift (e_exp (e_from g) (Z.of_nat y))) in
  Ok (eval_pol (F := opsE) c (e_mul special_x sinv)).

(* lines 252-263: the value it must equal *)
Definition next_value (next : option (query * nat)) (last : list F3G) (i y : nat) : res F3G :=
  match next with
  | Some (q, b2) =>
      do o <- vget (q_openings q) i; do o0 <- vget o 0;
      get3 (fst o0) (y / 2 ^ b2)
  | None => vget last y
  end.

Section Check.
Variable check_query : list opening -> nat -> res (list F3G).
(* lines 235-264: the queries of one step *)
Fixpoint v_step (first : bool) (q : query) (next : option (query * nat)) (last : list F3G) (pol_bits : nat)
    (shift special_x : F3G) (i : nat) (ys : list nat) : res bool :=
  match ys with
  | [] => Ok true
  | y :: ys' =>
      do o <- vget (q_openings q) i;
      do pg <- (if first then check_query o y else check_opening (q_root q) o y);
      match first, pg with
      | true, [] => Ok false
      | _, _ =>
          do ev <- fold_check pg pol_bits y shift special_x;
          do want <- next_value next last i y;
          if e__eq ev want then v_step first q next last pol_bits shift special_x (S i) ys' else Ok false
      end
  end.
(* lines 232-276. Returned: the verdict and the last pol_bits. *)
Fixpoint v_steps (first : bool) (steps : list nat) (qs : list query) (xs : list F3G) (ys : list nat) (last : list F3G)
    (pol_bits : nat) (shift : F3G) : res (bool * nat) :=
  match steps, qs, xs with
  | [], _, _ => Ok (true, pol_bits)
  | b :: rest, q :: qs', x :: xs' =>
      if pol_bits <? b then Panic else
      do next <- match rest with
                 | [] => Ok None
                 | b2 :: _ => do q2 <- vget qs' 0; Ok (Some (q2, b2))
                 end;
      do ok <- v_step first q next last pol_bits shift x 0 ys;
      if ok then
        v_steps false rest qs' xs' (match rest with [] => ys | b2 :: _ => reduce_ys ys b2 end) last b
          (esqn (pol_bits - b) shift)
      else Ok (false, pol_bits)
  | _, _, _ => Panic
  end.

(* lines 278-295 the final polynomial *)
Definition max_deg_of (in_nbits max_deg_nbits pol_bits : nat) : res nat :=
  if in_nbits <? max_deg_nbits then Panic (* underflow *)
  else Ok (if pol_bits <? in_nbits - max_deg_nbits then 0 else 2 ^ (pol_bits - (in_nbits - max_deg_nbits))).
Definition check_last (last : list F3G) (max_deg : nat) : res bool :=
  do c <- ifft (F := opsE) last;
  Ok (forallb e_is_zero (skipn (max_deg + 1) c)).

(* lines 187-296 verify *)
Definition fri_verify (in_nbits max_deg_nbits n_queries : nat) (steps : list nat) (t : transcript) (p : friproof) : res bool :=
  if negb (length (fp_queries p) =? length steps) then Panic else
  do xt <- v_challenges steps t (fp_queries p) (fp_last p);
  match steps with
  | [] => Panic
  | b0 :: _ =>
      do yt <- get_permutations perm (snd xt) n_queries b0;
      let ys := map Z.to_nat (fst yt) in
      do r <- v_steps true steps (fp_queries p) (fst xt) ys (fp_last p) in_nbits (e_from SHIFT);
      if fst r then
        do md <- max_deg_of in_nbits max_deg_nbits (snd r);
        check_last (fp_last p) md
      else Ok false
  end.
End Check.
End Fri.
