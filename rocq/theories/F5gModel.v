(* Model of starky/src/f5g.rs: the quintic extension of the Goldilocks field.
   The dimension tag is a boolean: [d5 = true] is dim 5, [false] is dim 1. Other tags (only reachable
   through Default or a struct literal) are not modelled. *)
From Verif Require Import Base GlModel FrField F3gModel.
Open Scope Z_scope.
Open Scope res_scope.

(* f5g.rs:15-18 *)
Record F5G : Type := mkF5 { g0 : Fr; g1 : Fr; g2 : Fr; g3 : Fr; g4 : Fr; d5 : bool }.

(* f5g.rs:502-508 From<Fr> *)
Definition g_from (x : Fr) : F5G := mkF5 x f0 f0 f0 f0 false.
(* f5g.rs:27-31 new *)
Definition g_new (a b c d e : Fr) : F5G := mkF5 a b c d e true.
(* f5g.rs:40-43 *)
Definition g_ZERO : F5G := g_from f0.
Definition g_ONE : F5G := g_from f1.
Definition g_ZEROS : F5G := g_new f0 f0 f0 f0 f0.
Definition g_ONES : F5G := g_new f1 f0 f0 f0 f0.
(* f5g.rs:50-53 from_vec *)
Definition g_from_vec (l : list Fr) : res F5G :=
  match l with [a; b; c; d; e] => Ok (g_new a b c d e) | _ => Panic end.
(* f5g.rs:56-59 to_be *)
Definition g_to_be (a : F5G) : res Fr := if d5 a then Panic else Ok (g0 a).
(* f5g.rs:62-68 as_elements *)
Definition g_as_elements (a : F5G) : list Fr := if d5 a then [g0 a; g1 a; g2 a; g3 a; g4 a] else [g0 a].
(* f5g.rs:71-79 mul_scalar; Fr::from panics for an argument of p or more *)
Definition g_mul_scalar (a : F5G) (b : Z) : res F5G :=
  if (b <? 0) || (MODULUS <=? b) then Panic else
  let b := fof b in
  Ok (if d5 a then g_new (fmul (g0 a) b) (fmul (g1 a) b) (fmul (g2 a) b) (fmul (g3 a) b) (fmul (g4 a) b) else g_from (fmul (g0 a) b)).
(* f5g.rs:82-98 _eq *)
Definition g__eq (a b : F5G) : bool :=
  if Bool.eqb (d5 a) (d5 b) then feqb (g0 a) (g0 b) && feqb (g1 a) (g1 b) && feqb (g2 a) (g2 b) && feqb (g3 a) (g3 b) && feqb (g4 a) (g4 b)
  else if negb (d5 a) then feqb (g0 a) (g0 b) && feqb (g1 b) f0 && feqb (g2 b) f0 && feqb (g3 b) f0 && feqb (g4 b) f0
  else feqb (g0 a) (g0 b) && feqb (g1 a) f0 && feqb (g2 a) f0 && feqb (g3 a) f0 && feqb (g4 a) f0.
(* f5g.rs:101-128 gt; the first alternative asks the other coefficients to be equal *)
Definition g_gt (a b : F5G) : res bool :=
  if negb (Bool.eqb (d5 a) (d5 b)) then Panic
  else if d5 a then
    Ok ((fgtb (g0 a) (g0 b) && feqb (g1 a) (g1 b) && feqb (g2 a) (g2 b) && feqb (g3 a) (g3 b) && feqb (g4 a) (g4 b))
        || (feqb (g0 a) (g0 b) && fgtb (g1 a) (g1 b))
        || (feqb (g0 a) (g0 b) && feqb (g1 a) (g1 b) && fgtb (g2 a) (g2 b))
        || (feqb (g0 a) (g0 b) && feqb (g1 a) (g1 b) && feqb (g2 a) (g2 b) && fgtb (g3 a) (g3 b))
        || (feqb (g0 a) (g0 b) && feqb (g1 a) (g1 b) && feqb (g2 a) (g2 b) && feqb (g3 a) (g3 b) && fgtb (g4 a) (g4 b)))
  else Ok (fgtb (g0 a) (g0 b)).
(* f5g.rs:131-134 geq *)
Definition g_geq (a b : F5G) : res bool := if g__eq a b then Ok true else g_gt a b.
(* f5g.rs:136-139 lt: !gt || lt, so it calls itself without end where gt holds *)
Definition g_lt (a b : F5G) : res bool := do g <- g_gt a b; if g then Hang else Ok true.
(* f5g.rs:141-144 leq *)
Definition g_leq (a b : F5G) : res bool := rmap negb (g_gt a b).

(* f5g.rs:321-356 Add *)
Definition g_add (a b : F5G) : F5G :=
  if d5 a then
    if d5 b then mkF5 (fadd (g0 a) (g0 b)) (fadd (g1 a) (g1 b)) (fadd (g2 a) (g2 b)) (fadd (g3 a) (g3 b)) (fadd (g4 a) (g4 b)) true
    else g_new (fadd (g0 a) (g0 b)) (g1 a) (g2 a) (g3 a) (g4 a)
  else
    if d5 b then g_new (fadd (g0 b) (g0 a)) (g1 b) (g2 b) (g3 b) (g4 b)
    else g_from (fadd (g0 a) (g0 b)).
(* f5g.rs:365-402 Sub *)
Definition g_sub (a b : F5G) : F5G :=
  if d5 a then
    if d5 b then mkF5 (fsub (g0 a) (g0 b)) (fsub (g1 a) (g1 b)) (fsub (g2 a) (g2 b)) (fsub (g3 a) (g3 b)) (fsub (g4 a) (g4 b)) true
    else g_new (fsub (g0 a) (g0 b)) (g1 a) (g2 a) (g3 a) (g4 a)
  else
    if d5 b then g_new (fsub (g0 a) (g0 b)) (fneg (g1 b)) (fneg (g2 b)) (fneg (g3 b)) (fneg (g4 b))
    else g_from (fsub (g0 a) (g0 b)).
Definition g_three : Fr := fof 3.
(* f5g.rs:421-440 the product of two elements of dimension 5; square, 235-254, is the same text with b = a *)
Definition g_mul5 (a b : F5G) : F5G :=
  mkF5
    (fadd (fmul (g0 a) (g0 b)) (fmul g_three (fadd (fadd (fadd (fmul (g1 a) (g4 b)) (fmul (g2 a) (g3 b))) (fmul (g3 a) (g2 b))) (fmul (g4 a) (g1 b)))))
    (fadd (fadd (fmul (g0 a) (g1 b)) (fmul (g1 a) (g0 b))) (fmul g_three (fadd (fadd (fmul (g2 a) (g4 b)) (fmul (g3 a) (g3 b))) (fmul (g4 a) (g2 b)))))
    (fadd (fadd (fadd (fmul (g0 a) (g2 b)) (fmul (g1 a) (g1 b))) (fmul (g2 a) (g0 b))) (fmul g_three (fadd (fmul (g3 a) (g4 b)) (fmul (g4 a) (g3 b)))))
    (fadd (fadd (fadd (fadd (fmul (g0 a) (g3 b)) (fmul (g1 a) (g2 b))) (fmul (g2 a) (g1 b))) (fmul (g3 a) (g0 b))) (fmul g_three (fmul (g4 a) (g4 b))))
    (fadd (fadd (fadd (fadd (fmul (g0 a) (g4 b)) (fmul (g1 a) (g3 b))) (fmul (g2 a) (g2 b))) (fmul (g3 a) (g1 b))) (fmul (g4 a) (g0 b)))
    true.
(* f5g.rs:411-461 Mul *)
Definition g_mul (a b : F5G) : F5G :=
  if d5 a then
    if d5 b then g_mul5 a b
    else g_new (fmul (g0 b) (g0 a)) (fmul (g0 b) (g1 a)) (fmul (g0 b) (g2 a)) (fmul (g0 b) (g3 a)) (fmul (g0 b) (g4 a))
  else
    if d5 b then g_new (fmul (g0 a) (g0 b)) (fmul (g0 a) (g1 b)) (fmul (g0 a) (g2 b)) (fmul (g0 a) (g3 b)) (fmul (g0 a) (g4 b))
    else g_from (fmul (g0 a) (g0 b)).
(* f5g.rs:486-501 Neg: the cases are dim 3 and dim 1 *)
Definition g_neg (a : F5G) : res F5G := if d5 a then Panic else Ok (g_from (fneg (g0 a))).
(* f5g.rs:232-263 Field::square *)
Definition g_square (a : F5G) : F5G := if d5 a then g_mul5 a a else g_from (fsquare (g0 a)).
(* f5g.rs:265-268 double *)
Definition g_double (a : F5G) : F5G := g_add a a.
(* f5g.rs:270-273 negate *)
Definition g_negate (a : F5G) : res F5G := g_neg a.
(* f5g.rs:581-595 frob1; the assertion dim = 5 holds where it is called *)
Definition g_frob1 (a : F5G) : F5G :=
  mkF5 (g0 a) (fmul (g1 a) (fof 1041288259238279555)) (fmul (g2 a) (fof 15820824984080659046)) (fmul (g3 a) (fof 211587555138949697)) (fmul (g4 a) (fof 1373043270956696022)) true.
(* f5g.rs:597-607 frob2 *)
Definition g_frob2 (a : F5G) : F5G :=
  mkF5 (g0 a) (fmul (g1 a) (fof 15820824984080659046)) (fmul (g2 a) (fof 1373043270956696022)) (fmul (g3 a) (fof 1041288259238279555)) (fmul (g4 a) (fof 211587555138949697)) true.
(* f5g.rs:609-674 _inv *)
Definition g__inv (a : F5G) : F5G :=
  let t0 := g_frob1 a in
  let t1 := g_mul t0 (g_frob1 t0) in
  let t2 := g_mul t1 (g_frob2 t1) in
  let t3 := fadd (fmul (g0 a) (g0 t2)) (fmul g_three (fadd (fadd (fadd (fmul (g1 a) (g4 t2)) (fmul (g2 a) (g3 t2))) (fmul (g3 a) (g2 t2))) (fmul (g4 a) (g1 t2)))) in
  let t3 := if feqb t3 f0 then f1 else t3 in
  g_mul t2 (g_from (finv t3)).
(* f5g.rs:177-185 inv *)
Definition g_inv (a : F5G) : F5G := if d5 a then g__inv a else g_from (finv (g0 a)).
(* f5g.rs:470-477 Div *)
Definition g_div (a b : F5G) : F5G := g_mul a (g_inv b).
(* f5g.rs:224-230 Field::is_zero *)
Definition g_is_zero (a : F5G) : bool := if d5 a then g__eq a g_ZEROS else g__eq a g_ZERO.
(* f5g.rs:146-174 exp, as in f3g.rs *)
Fixpoint g_exp_pos (a : F5G) (e : positive) : F5G :=
  match e with
  | xH => a
  | xO e' => g_square (g_exp_pos a e')
  | xI e' => g_mul (g_square (g_exp_pos a e')) a
  end.
Definition g_exp (a : F5G) (e : Z) : F5G :=
  match e with Zpos p => g_exp_pos a p | _ => g_ONE end.
(* f5g.rs:188-190 as_int *)
Definition g_as_int (a : F5G) : Z := fint (g0 a).
