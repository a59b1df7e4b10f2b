(* Model of starky/src/f3g.rs: the cubic extension of the Goldilocks field.
   The dimension tag is a boolean: [d3 = true] is dim 3, [false] is dim 1. Other tags (only reachable
   through Default or a struct literal, every operation then panics) are not modelled. *)
From Verif Require Import Base GlModel FrField.
Open Scope Z_scope.

(* f3g.rs:15-18 *)
Record F3G : Type := mkF3 { c0 : Fr; c1 : Fr; c2 : Fr; d3 : bool }.

(* f3g.rs:488-493 From<Fr> *)
Definition e_from (x : Fr) : F3G := mkF3 x f0 f0 false.
(* f3g.rs:31-33 new *)
Definition e_new (a b c : Fr) : F3G := mkF3 a b c true.
(* f3g.rs:52-56 *)
Definition e_ZERO : F3G := e_from f0.
Definition e_ONE : F3G := e_from f1.
Definition e_ZEROS : F3G := e_new f0 f0 f0.
Definition e_ONES : F3G := e_new f1 f0 f0.
(* f3g.rs:57-60 dim *)
Definition e_dim (a : F3G) : Z := if d3 a then 3 else 1.
(* f3g.rs:63-66 from_vec *)
Definition e_from_vec (l : list Fr) : res F3G :=
  match l with [a; b; c] => Ok (e_new a b c) | _ => Panic end.
(* f3g.rs:69-72 to_be *)
Definition e_to_be (a : F3G) : res Fr := if d3 a then Panic else Ok (c0 a).
(* f3g.rs:75-81 as_elements *)
Definition e_as_elements (a : F3G) : list Fr := if d3 a then [c0 a; c1 a; c2 a] else [c0 a].
(* f3g.rs:84-92 mul_scalar; the argument is a u64 below p (Fr::from panics otherwise) *)
Definition e_mul_scalar (a : F3G) (b : Z) : res F3G :=
  if (b <? 0) || (MODULUS <=? b) then Panic else
  let b := fof b in
  Ok (if d3 a then e_new (fmul (c0 a) b) (fmul (c1 a) b) (fmul (c2 a) b) else e_from (fmul (c0 a) b)).
(* f3g.rs:14 derived PartialEq *)
Definition e_eqb (a b : F3G) : bool :=
  feqb (c0 a) (c0 b) && feqb (c1 a) (c1 b) && feqb (c2 a) (c2 b) && Bool.eqb (d3 a) (d3 b).
(* f3g.rs:95-103 _eq *)
Definition e__eq (a b : F3G) : bool :=
  if Bool.eqb (d3 a) (d3 b) then feqb (c0 a) (c0 b) && feqb (c1 a) (c1 b) && feqb (c2 a) (c2 b)
  else if negb (d3 a) then feqb (c0 a) (c0 b) && feqb (c1 b) f0 && feqb (c2 b) f0
  else feqb (c0 a) (c0 b) && feqb (c1 a) f0 && feqb (c2 a) f0.
(* Fr's > : field_gl.rs:285-296 *)
Definition fgtb (a b : Fr) : bool := match fr_cmp (fw a) (fw b) with Gt => true | _ => false end.
(* f3g.rs:106-121 gt *)
Definition e_gt (a b : F3G) : res bool :=
  if negb (Bool.eqb (d3 a) (d3 b)) then Panic
  else if d3 a then
    Ok (fgtb (c0 a) (c0 b)
        || (feqb (c0 a) (c0 b) && fgtb (c1 a) (c1 b))
        || (feqb (c0 a) (c0 b) && feqb (c1 a) (c1 b) && fgtb (c2 a) (c2 b)))
  else Ok (fgtb (c0 a) (c0 b)).
(* f3g.rs:124-126 geq: || short-circuits *)
Definition e_geq (a b : F3G) : res bool := if e__eq a b then Ok true else e_gt a b.
(* f3g.rs:129-136 *)
Definition e_lt (a b : F3G) : res bool := rmap negb (e_geq a b).
Definition e_leq (a b : F3G) : res bool := rmap negb (e_gt a b).

(* f3g.rs:323-356 Add *)
Definition e_add (a b : F3G) : F3G :=
  if d3 a then
    if d3 b then mkF3 (fadd (c0 a) (c0 b)) (fadd (c1 a) (c1 b)) (fadd (c2 a) (c2 b)) true
    else e_new (fadd (c0 a) (c0 b)) (c1 a) (c2 a)
  else
    if d3 b then e_new (fadd (c0 b) (c0 a)) (c1 b) (c2 b)
    else e_from (fadd (c0 a) (c0 b)).
(* f3g.rs:365-398 Sub *)
Definition e_sub (a b : F3G) : F3G :=
  if d3 a then
    if d3 b then mkF3 (fsub (c0 a) (c0 b)) (fsub (c1 a) (c1 b)) (fsub (c2 a) (c2 b)) true
    else e_new (fsub (c0 a) (c0 b)) (c1 a) (c2 a)
  else
    if d3 b then e_new (fsub (c0 a) (c0 b)) (fneg (c1 b)) (fneg (c2 b))
    else e_from (fsub (c0 a) (c0 b)).
(* f3g.rs:407-449 Mul *)
Definition e_mul (a b : F3G) : F3G :=
  if d3 a then
    if negb (d3 b) then
      e_new (fmul (c0 b) (c0 a)) (fmul (c0 b) (c1 a)) (fmul (c0 b) (c2 a))
    else
      let aa := fmul (fadd (c0 a) (c1 a)) (fadd (c0 b) (c1 b)) in
      let bb := fmul (fadd (c0 a) (c2 a)) (fadd (c0 b) (c2 b)) in
      let cc := fmul (fadd (c1 a) (c2 a)) (fadd (c1 b) (c2 b)) in
      let dd := fmul (c0 a) (c0 b) in
      let ee := fmul (c1 a) (c1 b) in
      let ff := fmul (c2 a) (c2 b) in
      let gg := fsub dd ee in
      mkF3 (fsub (fadd cc gg) ff) (fsub (fsub (fsub (fadd aa cc) ee) ee) dd) (fsub bb gg) true
  else
    if negb (d3 b) then e_from (fmul (c0 a) (c0 b))
    else e_new (fmul (c0 a) (c0 b)) (fmul (c0 a) (c1 b)) (fmul (c0 a) (c2 b)).
(* f3g.rs:474-486 Neg *)
Definition e_neg (a : F3G) : F3G :=
  if d3 a then mkF3 (fneg (c0 a)) (fneg (c1 a)) (fneg (c2 a)) true else e_from (fneg (c0 a)).
(* f3g.rs:263-285 Field::square *)
Definition e_square (a : F3G) : F3G :=
  if d3 a then
    let aa := fmul (fadd (c0 a) (c1 a)) (fadd (c0 a) (c1 a)) in
    let bb := fmul (fadd (c0 a) (c2 a)) (fadd (c0 a) (c2 a)) in
    let cc := fmul (fadd (c1 a) (c2 a)) (fadd (c1 a) (c2 a)) in
    let dd := fmul (c0 a) (c0 a) in
    let ee := fmul (c1 a) (c1 a) in
    let ff := fmul (c2 a) (c2 a) in
    let gg := fsub dd ee in
    mkF3 (fsub (fadd cc gg) ff) (fsub (fsub (fsub (fadd aa cc) ee) ee) dd) (fsub bb gg) true
  else mkF3 (fsquare (c0 a)) f0 f0 false.
(* f3g.rs:288-290 double *)
Definition e_double (a : F3G) : F3G := e_add a a.
(* f3g.rs:207-234 _inv *)
Definition e__inv (a : F3G) : F3G :=
  let a0 := c0 a in let a1 := c1 a in let a2 := c2 a in
  let aa := fmul a0 a0 in
  let ac := fmul a0 a2 in
  let ba := fmul a1 a0 in
  let bb := fmul a1 a1 in
  let bc := fmul a1 a2 in
  let cc := fmul a2 a2 in
  let aaa := fmul aa a0 in
  let aac := fmul aa a2 in
  let abc := fmul ba a2 in
  let abb := fmul ba a1 in
  let acc := fmul ac a2 in
  let bbb := fmul bb a1 in
  let bcc := fmul bc a2 in
  let ccc := fmul cc a2 in
  let t := fsub (fadd (fsub (fsub (fadd (fadd (fadd (fadd (fsub (fsub (fneg aaa) aac) aac) abc) abc) abc) abb) acc) bbb) bcc) ccc in
  let tinv := finv t in
  let i1 := fmul (fsub (fadd (fadd (fsub (fsub (fneg aa) ac) ac) bc) bb) cc) tinv in
  let i2 := fmul (fsub ba cc) tinv in
  let i3 := fmul (fadd (fadd (fneg bb) ac) cc) tinv in
  mkF3 i1 i2 i3 true.
(* f3g.rs:182-190 inv *)
Definition e_inv (a : F3G) : F3G := if d3 a then e__inv a else e_from (finv (c0 a)).
(* f3g.rs:458-465 Div *)
Definition e_div (a b : F3G) : F3G := e_mul a (e_inv b).
(* f3g.rs:255-260 Field::is_zero *)
Definition e_is_zero (a : F3G) : bool := if d3 a then e__eq a e_ZEROS else e__eq a e_ZERO.
(* f3g.rs:139-167 exp. The bits of e, least significant first, are pushed on a vector and then
   read from the second highest down: recursion on the binary representation. *)
Fixpoint e_exp_pos (a : F3G) (e : positive) : F3G :=
  match e with
  | xH => a
  | xO e' => e_square (e_exp_pos a e')
  | xI e' => e_mul (e_square (e_exp_pos a e')) a
  end.
Definition e_exp (a : F3G) (e : Z) : F3G :=
  match e with Zpos p => e_exp_pos a p | _ => e_ONE end.
(* f3g.rs:170-179 as_int *)
Definition e_as_int (a : F3G) : Z := fint (c0 a).
