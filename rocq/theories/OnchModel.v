(* Model of the arithmetic that starky/src/stark_verifier_circom_onchain.rs writes into the final verifier circuit: unrollCode. That
   circuit is over the scalar field of a curve, of prime order [r]; Goldilocks elements are integers in it that are reduced only by the
   templates of gl.circom (CircModel). A text is a tree, as in UnrollModel; the literal p is the number TNum gl_p. *)
From Verif Require Import Base GlModel FrField Cubic CodegenModel InterpModel VerifierModel UnrollModel CircModel.
Open Scope nat_scope.
Open Scope res_scope.

(* OBad is text that circom does not read *)
Inductive orhs : Type :=
| OScal (e : sx) | OVec (e0 e1 e2 : sx) | OWhole (t : txt) | OCMul (a b : arg) | OMulAdd (a b c : txt) | OCMulAdd (a b c : arg) | OBad.
Definition XP : sx := XRef (TNum gl_p).

(* lines 213-258 "add": two base elements are written with an index *)
Definition o_add (d0 d1 : nat) (a b : txt) : res orhs :=
  match d0, d1 with
  | 1, 1 => Ok (OScal (XAdd (XIdx a 0) (XIdx b 0)))
  | 1, 3 => Ok (OVec (XAdd (XRef a) (XIdx b 0)) (XIdx b 1) (XIdx b 2))
  | 3, 1 => Ok (OVec (XAdd (XIdx a 0) (XRef b)) (XIdx a 1) (XIdx a 2))
  | 3, 3 => Ok (OVec (XAdd (XIdx a 0) (XIdx b 0)) (XAdd (XIdx a 1) (XIdx b 1)) (XAdd (XIdx a 2) (XIdx b 2)))
  | _, _ => Panic
  end.
(* lines 259-304 "sub" *)
Definition o_sub (d0 d1 : nat) (a b : txt) : res orhs :=
  match d0, d1 with
  | 1, 1 => Ok (OScal (XSub (XRef a) (XRef b)))
  | 1, 3 => Ok (OVec (XAdd (XSub (XRef a) (XIdx b 0)) XP) (XAdd (XNeg (XIdx b 1)) XP) (XAdd (XNeg (XIdx b 2)) XP))
  | 3, 1 => Ok (OVec (XAdd (XSub (XIdx a 0) (XRef b)) XP) (XIdx a 1) (XIdx a 2))
  | 3, 3 => Ok (OVec (XAdd (XSub (XIdx a 0) (XIdx b 0)) XP) (XAdd (XSub (XIdx a 1) (XIdx b 1)) XP) (XAdd (XSub (XIdx a 2) (XIdx b 2)) XP))
  | _, _ => Panic
  end.
(* lines 305-343 "mul": two base elements with "signal t = GLCMul1()(a, b)", neither a statement nor a template that exists *)
Definition o_mul (d0 d1 : nat) (a b : txt) : res orhs :=
  match d0, d1 with
  | 1, 1 => Ok OBad
  | 1, 3 => Ok (OCMul (AEmb a) (ARef b))
  | 3, 1 => Ok (OCMul (ARef a) (AEmb b))
  | 3, 3 => Ok (OCMul (ARef a) (ARef b))
  | _, _ => Panic
  end.
(* lines 344-362 "copy" *)
Definition o_copy (d0 : nat) (a : txt) : res orhs :=
  match d0 with 1 => Ok (OScal (XRef a)) | 3 => Ok (OWhole a) | _ => Panic end.
(* lines 363-408 "muladd": with two base factors and an extension element the brackets do not match *)
Definition o_arg (d : nat) (t : txt) : arg := match d with 1 => AEmb t | _ => ARef t end.
Definition o_muladd (d0 d1 d2 : nat) (a b c : txt) : res orhs :=
  if (d0 =? 1) && (d1 =? 1) then (if d2 =? 1 then Ok (OMulAdd a b c) else Ok OBad)
  else Ok (OCMulAdd (o_arg d0 a) (o_arg d1 b) (o_arg d2 c)).
(* lines 211-412: one instruction; ref_ (lines 189-209) writes the names of UnrollModel's u_ref *)
Definition o_rhs (n1 n2 n3 : nat) (c : instr) : res orhs :=
  let ref := u_ref n1 n2 n3 in
  match i_op c, i_src c with
  | CAdd, a :: b :: _ => do x <- ref a; do y <- ref b; o_add (n_dim a) (n_dim b) x y
  | CSub, a :: b :: _ => do x <- ref a; do y <- ref b; o_sub (n_dim a) (n_dim b) x y
  | CMul, a :: b :: _ => do x <- ref a; do y <- ref b; o_mul (n_dim a) (n_dim b) x y
  | CCopy, a :: _ => do x <- ref a; o_copy (n_dim a) x
  | CMuladd, a :: b :: d :: _ =>
      do x <- ref a; do y <- ref b; do z <- ref d; o_muladd (n_dim a) (n_dim b) (n_dim d) x y z
  | _, _ => Panic
  end.
Definition o_stm (n1 n2 n3 : nat) (c : instr) : res (txt * orhs) :=
  do r <- o_rhs n1 n2 n3 c; do d <- u_ref n1 n2 n3 (i_dest c); Ok (d, r).
(* lines 188-414 unrollCode *)
Definition o_unroll (n1 n2 n3 : nat) (code : list instr) : res (list (txt * orhs) * txt) :=
  do l <- mapM (o_stm n1 n2 n3) code;
  match rev code with
  | [] => Panic
  | c :: _ => do t <- u_ref n1 n2 n3 (i_dest c); Ok (l, t)
  end.

(* ---- what the text says of an assignment of integers, which stand for their classes modulo r ---- *)
Section Text.
Variable r : Z.
Variable env : txt -> list Z.
Definition oz (t : txt) : list Z := match t with TNum k => [k] | _ => env t end.
Definition oz3 (t : txt) : option sig3 := match oz t with [a; b; c] => Some (a, b, c) | _ => None end.
Definition oop (f : Z -> Z -> Z) (a b : option Z) : option Z := match a, b with Some x, Some y => Some (f x y) | _, _ => None end.
Fixpoint ox_val (e : sx) : option Z :=
  match e with
  | XRef t => match oz t with [a] => Some a | _ => None end
  | XIdx t k => match oz t with [a; b; c] => nth_error [a; b; c] k | _ => None end
  | XAdd a b => oop Z.add (ox_val a) (ox_val b)
  | XSub a b => oop Z.sub (ox_val a) (ox_val b)
  | XMul a b => oop Z.mul (ox_val a) (ox_val b)
  | XNeg a => match ox_val a with Some x => Some (- x)%Z | None => None end
  end.
Definition oa_val (a : arg) : option sig3 :=
  match a with
  | ARef t => oz3 t
  | AEmb t => match oz t with [a] => Some (a, 0%Z, 0%Z) | _ => None end
  end.
Definition ox_holds (e : sx) (y : Z) : Prop := exists z, ox_val e = Some z /\ eqr r y z.
Definition o_holds (s : txt * orhs) : Prop :=
  match snd s with
  | OScal e => exists y, env (fst s) = [y] /\ ox_holds e y
  | OVec e0 e1 e2 => exists y0 y1 y2, env (fst s) = [y0; y1; y2] /\ ox_holds e0 y0 /\ ox_holds e1 y1 /\ ox_holds e2 y2
  | OWhole t => exists y0 y1 y2, env (fst s) = [y0; y1; y2] /\ ox_holds (XIdx t 0) y0 /\ ox_holds (XIdx t 1) y1 /\ ox_holds (XIdx t 2) y2
  | OCMul a b => exists y0 y1 y2 x y, env (fst s) = [y0; y1; y2] /\ oa_val a = Some x /\ oa_val b = Some y /\ GLCMul r x y (y0, y1, y2)
  | OMulAdd a b c => exists y xa xb xc, env (fst s) = [y] /\ oz a = [xa] /\ oz b = [xb] /\ oz c = [xc] /\ GLMulAdd r xa xb xc y
  | OCMulAdd a b c => exists y0 y1 y2 x y z, env (fst s) = [y0; y1; y2] /\ oa_val a = Some x /\ oa_val b = Some y /\ oa_val c = Some z /\
      GLCMulAdd r x y z (y0, y1, y2)
  | OBad => False
  end.

(* lines 416-513, the body of VerifyEvaluations up to the final comparison; the signals that are set to inputs or constants are these *)
Definition sum3 (a b : sig3) : sig3 :=
  let '(a0, a1, a2) := a in let '(b0, b1, b2) := b in (a0 + b0, a1 + b1, a2 + b2)%Z.
Definition oe_body (prog : list (txt * orhs)) (nbits qdeg base : nat) (zmul xacc qstep qacc : nat -> sig3) (qz : sig3) : Prop :=
  (exists xi, oz3 (TChal 7) = Some xi /\
    forall i, i < nbits -> match i with O => GLCMul r xi xi (zmul 0) | S j => GLCMul r (zmul j) (zmul j) (zmul i) end) /\
  (exists z0 z1 z2, env TZ = [z0; z1; z2] /\
    on3 (eqr r) (z0, z1, z2) (let '(m0, m1, m2) := zmul (nbits - 1) in (m0 - 1 + gl_p, m1, m2)%Z)) /\
  Forall o_holds prog /\
  (forall i, i < qdeg ->
    match i with
    | O => xacc 0 = (1, 0, 0)%Z /\ oz3 (TEval base) = Some (qacc 0)
    | S j => GLCMul r (xacc j) (zmul (nbits - 1)) (xacc i) /\
             (exists e, oz3 (TEval (base + i)) = Some e /\ GLCMul r (xacc i) e (qstep j)) /\
             on3 (eqr r) (qacc i) (sum3 (qacc j) (qstep j))
    end) /\
  exists z, oz3 TZ = Some z /\ GLCMul r (qacc (qdeg - 1)) z qz.
(* lines 514-523: the final comparison *)
Definition oe_final (t : txt) (enable : Z) (qz : sig3) : Prop :=
  exists p0 p1 p2 o0 o1 o2, oz3 t = Some (p0, p1, p2) /\
    (let '(q0, q1, q2) := qz in GLCNorm r (p0 - q0, p1 - q1, p2 - q2)%Z (o0, o1, o2)) /\
    eqr r (enable * o0) 0 /\ eqr r (enable * o1) 0 /\ eqr r (enable * o2) 0.
End Text.
