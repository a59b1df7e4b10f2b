(* Model of the column helpers of starky/src/stark_gen.rs. Elements are those of f3g.rs. *)
From Verif Require Import Base GlModel FrField F3gModel PolyModel.
Open Scope nat_scope.
Open Scope res_scope.

(* stark_gen.rs:580-583: sn = sn * sn, nBits times *)
Fixpoint zh_shift (nbits : nat) (sn : F3G) : F3G :=
  match nbits with O => sn | S k => zh_shift k (e_mul sn sn) end.
(* stark_gen.rs:586-589: the table, n entries remaining *)
Fixpoint zh_table (n : nat) (sn w g : F3G) : list F3G :=
  match n with
  | O => []
  | S k => e_inv (e_sub (e_mul sn w) e_ONE) :: zh_table k sn (e_mul w g) g
  end.
(* stark_gen.rs:575-592 build_Zh_Inv, applied to a row. The table length is 2^extend_bits, so the
   remainder is always defined; MG.0 has 33 entries. *)
Definition build_Zh_Inv (nbits extend_bits offset i : nat) : res F3G :=
  do g <- MG extend_bits;
  let sn := zh_shift nbits (e_from SHIFT) in
  let t := zh_table (2 ^ extend_bits) sn e_ONE (e_from g) in
  vget t ((i + offset) mod length t).

(* stark_gen.rs:626, 630: the map of table entries; a later insertion replaces an earlier one. Keys are
   compared with the derived equality (f3g.rs:14), which includes the dimension tag. [None] is "absent". *)
Fixpoint idx_get (t : list F3G) (i : nat) (e : F3G) : option nat :=
  match t with
  | [] => None
  | x :: r =>
      match idx_get r (S i) e with
      | Some k => Some k
      | None => if e_eqb x e then Some i else None
      end
  end.
(* stark_gen.rs:629-632: the pairs of t *)
Fixpoint number_from (i : nat) (t : list F3G) : list (F3G * nat) :=
  match t with [] => [] | x :: r => (x, i) :: number_from (S i) r end.
(* stark_gen.rs:634-640: the pairs of f; an absent element panics *)
Definition f_pairs (f t : list F3G) : res (list (F3G * nat)) :=
  mapM (fun e => match idx_get t 0 e with Some k => Ok (e, k) | None => Panic end) f.
(* stark_gen.rs:642 sort_by: the standard library's sort is stable; insertion from the right is too *)
Fixpoint ins_by (p : F3G * nat) (l : list (F3G * nat)) : list (F3G * nat) :=
  match l with
  | [] => [p]
  | q :: r => if snd p <=? snd q then p :: l else q :: ins_by p r
  end.
Fixpoint sort_by (l : list (F3G * nat)) : list (F3G * nat) :=
  match l with [] => [] | p :: r => ins_by p (sort_by r) end.
(* stark_gen.rs:644-649: h1[i] = s[2i], h2[i] = s[2i+1]; the rayon loop writes disjoint cells *)
Definition pick (s : list (F3G * nat)) (i : nat) : res (F3G * F3G) :=
  do a <- vget s (2 * i); do b <- vget s (2 * i + 1); Ok (fst a, fst b).
(* stark_gen.rs:625-651 calculate_H1H2 *)
Definition calculate_H1H2 (f t : list F3G) : res (list F3G * list F3G) :=
  do fp <- f_pairs f t;
  let s := sort_by (number_from 0 t ++ fp) in
  do h <- mapM (pick s) (seq 0 (length f));
  Ok (map fst h, map snd h).

(* stark_gen.rs:659-661: z[i] = z[i-1] * (num[i-1] * den_inv[i-1]); [z_tail z ns ds] lists the values
   that follow z, the last one being check_val (664) *)
Fixpoint z_tail (z : F3G) (ns ds : list F3G) : list F3G :=
  match ns, ds with
  | n :: ns', d :: ds' => let z' := e_mul z (e_mul n d) in z' :: z_tail z' ns' ds'
  | _, _ => []
  end.
(* stark_gen.rs:653-667 calculate_Z: lengths must agree, z[0] of the empty vector panics *)
Definition calculate_Z (num den : list F3G) : res (list F3G) :=
  if negb (length num =? length den) then Panic else
  match num with
  | [] => Panic
  | _ =>
      let all := e_ONE :: z_tail e_ONE num (batch_inverse (F := opsE) den) in
      if e__eq (last all e_ZERO) e_ONE then Ok (firstn (length num) all) else Panic
  end.

(* starkinfo_codegen.rs:219-226 Polynom, with the buffer passed separately *)
Record pol : Type := mkPol { p_deg : nat; p_offset : nat; p_size : nat; p_dim : nat }.

(* stark_gen.rs:594-622 set_pol; the buffer is returned. pol[i] beyond the end panics. *)
Definition set_row (p : pol) (v : list F3G) (buf : list F3G) (i : nat) : res (list F3G) :=
  let a := p_offset p + i * p_size p in
  do e <- vget v i;
  if p_dim p =? 1 then vset buf a e
  else
    let '(x, y, z) := if d3 e then (e_from (c0 e), e_from (c1 e), e_from (c2 e)) else (e_from (c0 e), e_ZERO, e_ZERO) in
    do b1 <- vset buf a x; do b2 <- vset b1 (a + 1) y; vset b2 (a + 2) z.
Definition set_pol (p : pol) (v : list F3G) (buf : list F3G) : res (list F3G) :=
  if (p_dim p =? 1) || (p_dim p =? 3) then foldM (set_row p v) (seq 0 (p_deg p)) buf else Panic.

(* stark_gen.rs:684-707 get_pol *)
Definition get_row (p : pol) (buf : list F3G) (i : nat) : res F3G :=
  let a := p_offset p + i * p_size p in
  if p_dim p =? 1 then vget buf a
  else
    do x <- vget buf a; do x' <- e_to_be x;
    do y <- vget buf (a + 1); do y' <- e_to_be y;
    do z <- vget buf (a + 2); do z' <- e_to_be z;
    e_from_vec [x'; y'; z'].
Definition get_pol (p : pol) (buf : list F3G) : res (list F3G) :=
  if (p_dim p =? 1) || (p_dim p =? 3) then mapM (get_row p buf) (seq 0 (p_deg p)) else Panic.
