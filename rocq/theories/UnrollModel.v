(* Model of the arithmetic that starky/src/stark_verifier_circom.rs writes into the recursive verifier circuit: unrollCode and
   the template VerifyEvaluations. A text is a tree instead of a string. The circuit is over the Goldilocks field; its templates
   CMul and CMulAdd are not in the repository and are taken as the product of f3g.rs and its sum with a third argument. *)
From Verif Require Import Base GlModel FrField Cubic F3gModel CodegenModel InterpModel VerifierModel.
Open Scope nat_scope.
Open Scope res_scope.

(* the names that ref_ writes (lines 163-185); TTree t k is mapValues.tree{t}_{k}, TNum a literal *)
Inductive txt : Type :=
| TEval (i : nat) | TChal (i : nat) | TPub (i : nat) | TZ | TXd | TXdw | TTmp (i : nat)
| TTree (t k : nat) | TConst (i : nat) | TNum (k : Z).
(* a usize difference; below zero it panics *)
Definition usub (a b : nat) : res nat := if b <=? a then Ok (a - b) else Panic.
(* lines 163-185 ref_; [n1 n2 n3] are starkinfo's n_cm1, n_cm2, n_cm3 *)
Definition u_ref (n1 n2 n3 : nat) (r : node) : res txt :=
  match n_ty r with
  | Neval => Ok (TEval (n_id r))
  | Nchallenge => Ok (TChal (n_id r))
  | Npublic => Ok (TPub (n_id r))
  | Nx => Ok (TChal 7)
  | NZ => Ok TZ
  | NxDivXSubXi => Ok TXd
  | NxDivXSubWXi => Ok TXdw
  | Ntmp => Ok (TTmp (n_id r))
  | Ntree1 => Ok (TTree 1 (n_id r))
  | Ntree2 => rmap (TTree 2) (usub (n_id r) n1)
  | Ntree3 => rmap (TTree 3) (do a <- usub (n_id r) n1; usub a n2)
  | Ntree4 => rmap (TTree 4) (do a <- usub (n_id r) n1; do b <- usub a n2; usub b n3)
  | Nconst => Ok (TConst (n_id r))
  | Nnumber => rmap TNum (unwrap (n_value r))
  | _ => Panic
  end.

(* scalar expressions, and the right-hand sides of "signal dest <== ..." and "signal dest[3] <== ..." *)
Inductive sx : Type :=
| XRef (t : txt) | XIdx (t : txt) (k : nat) | XAdd (a b : sx) | XSub (a b : sx) | XMul (a b : sx) | XNeg (a : sx).
Inductive arg : Type := ARef (t : txt) | AEmb (t : txt) (* [t, 0, 0] *).
Inductive rhs : Type :=
| RScal (e : sx) | RVec (e0 e1 e2 : sx) | RWhole (t : txt) | RCMul (a b : arg) | RCMulAdd (a b c : arg).

(* lines 209-253 "add" *)
Definition u_add (d0 d1 : nat) (a b : txt) : res rhs :=
  match d0, d1 with
  | 1, 1 => Ok (RScal (XAdd (XRef a) (XRef b)))
  | 1, 3 => Ok (RVec (XAdd (XRef a) (XIdx b 0)) (XIdx b 1) (XIdx b 2))
  | 3, 1 => Ok (RVec (XAdd (XIdx a 0) (XRef b)) (XIdx a 1) (XIdx a 2))
  | 3, 3 => Ok (RVec (XAdd (XIdx a 0) (XIdx b 0)) (XAdd (XIdx a 1) (XIdx b 1)) (XAdd (XIdx a 2) (XIdx b 2)))
  | _, _ => Panic
  end.
(* lines 254-298 "sub" *)
Definition u_sub (d0 d1 : nat) (a b : txt) : res rhs :=
  match d0, d1 with
  | 1, 1 => Ok (RScal (XSub (XRef a) (XRef b)))
  | 1, 3 => Ok (RVec (XSub (XRef a) (XIdx b 0)) (XNeg (XIdx b 1)) (XNeg (XIdx b 2)))
  | 3, 1 => Ok (RVec (XSub (XIdx a 0) (XRef b)) (XIdx a 1) (XIdx a 2))
  | 3, 3 => Ok (RVec (XSub (XIdx a 0) (XIdx b 0)) (XSub (XIdx a 1) (XIdx b 1)) (XSub (XIdx a 2) (XIdx b 2)))
  | _, _ => Panic
  end.
(* lines 299-343 "mul" *)
Definition u_mul (d0 d1 : nat) (a b : txt) : res rhs :=
  match d0, d1 with
  | 1, 1 => Ok (RScal (XMul (XRef a) (XRef b)))
  | 1, 3 => Ok (RVec (XMul (XRef a) (XIdx b 0)) (XMul (XRef a) (XIdx b 1)) (XMul (XRef a) (XIdx b 2)))
  | 3, 1 => Ok (RVec (XMul (XIdx a 0) (XRef b)) (XMul (XIdx a 1) (XRef b)) (XMul (XIdx a 2) (XRef b)))
  | 3, 3 => Ok (RCMul (ARef a) (ARef b))
  | _, _ => Panic
  end.
(* lines 344-362 "copy" *)
Definition u_copy (d0 : nat) (a : txt) : res rhs :=
  match d0 with 1 => Ok (RScal (XRef a)) | 3 => Ok (RWhole a) | _ => Panic end.
(* lines 363-454 "muladd" *)
Definition u_arg (d : nat) (t : txt) : res arg := match d with 3 => Ok (ARef t) | 1 => Ok (AEmb t) | _ => Panic end.
Definition u_muladd (d0 d1 d2 : nat) (a b c : txt) : res rhs :=
  match d2 with
  | 1 =>
      match d0, d1 with
      | 1, 1 => Ok (RScal (XAdd (XMul (XRef a) (XRef b)) (XRef c)))
      | 1, 3 => Ok (RVec (XAdd (XMul (XRef a) (XIdx b 0)) (XRef c)) (XMul (XRef a) (XIdx b 1)) (XMul (XRef a) (XIdx b 2)))
      | 3, 1 => Ok (RVec (XAdd (XMul (XIdx a 0) (XRef b)) (XRef c)) (XMul (XIdx a 1) (XRef b)) (XMul (XIdx a 2) (XRef b)))
      | 3, 3 => Ok (RCMulAdd (ARef a) (ARef b) (AEmb c))
      | _, _ => Panic
      end
  | 3 =>
      if (d0 =? 1) && (d1 =? 1) then Ok (RVec (XAdd (XMul (XRef a) (XRef b)) (XIdx c 0)) (XIdx c 1) (XIdx c 2))
      else do x <- u_arg d0 a; do y <- u_arg d1 b; do z <- u_arg d2 c; Ok (RCMulAdd x y z)
  | _ => Panic
  end.
(* lines 187-457: one instruction. Indexing inst.src out of range panics. *)
Definition u_rhs (n1 n2 n3 : nat) (c : instr) : res rhs :=
  let ref := u_ref n1 n2 n3 in
  match i_op c, i_src c with
  | CAdd, a :: b :: _ => do x <- ref a; do y <- ref b; u_add (n_dim a) (n_dim b) x y
  | CSub, a :: b :: _ => do x <- ref a; do y <- ref b; u_sub (n_dim a) (n_dim b) x y
  | CMul, a :: b :: _ => do x <- ref a; do y <- ref b; u_mul (n_dim a) (n_dim b) x y
  | CCopy, a :: _ => do x <- ref a; u_copy (n_dim a) x
  | CMuladd, a :: b :: d :: _ =>
      do x <- ref a; do y <- ref b; do z <- ref d; u_muladd (n_dim a) (n_dim b) (n_dim d) x y z
  | _, _ => Panic
  end.
Definition u_stm (n1 n2 n3 : nat) (c : instr) : res (txt * rhs) :=
  do r <- u_rhs n1 n2 n3 c; do d <- u_ref n1 n2 n3 (i_dest c); Ok (d, r).
(* lines 162-459 unrollCode: the statements and the name of the last destination *)
Definition unroll (n1 n2 n3 : nat) (code : list instr) : res (list (txt * rhs) * txt) :=
  do l <- mapM (u_stm n1 n2 n3) code;
  match rev code with
  | [] => Panic
  | c :: _ => do t <- u_ref n1 n2 n3 (i_dest c); Ok (l, t)
  end.

(* ---- what the text says: an assignment gives each signal one element, or three if it is an array; a text that uses an array as
   a scalar or the reverse has no meaning (circom rejects it) ---- *)
Section Text.
Variable env : txt -> list Fr.
Definition t_val (t : txt) : list Fr := match t with TNum k => [fof k] | _ => env t end.
Definition t_one (t : txt) : option Fr := match t_val t with [a] => Some a | _ => None end.
Definition t_three (t : txt) : option K := match t_val t with [a; b; c] => Some (mkK a b c) | _ => None end.
Definition opt2 (f : Fr -> Fr -> Fr) (a b : option Fr) : option Fr :=
  match a, b with Some x, Some y => Some (f x y) | _, _ => None end.
Fixpoint x_val (e : sx) : option Fr :=
  match e with
  | XRef t => t_one t
  | XIdx t k => match t_val t with [a; b; c] => nth_error [a; b; c] k | _ => None end
  | XAdd a b => opt2 fadd (x_val a) (x_val b)
  | XSub a b => opt2 fsub (x_val a) (x_val b)
  | XMul a b => opt2 fmul (x_val a) (x_val b)
  | XNeg a => match x_val a with Some x => Some (fneg x) | None => None end
  end.
Definition a_val (a : arg) : option K :=
  match a with
  | ARef t => t_three t
  | AEmb t => match t_one t with Some x => Some (mkK x f0 f0) | None => None end
  end.
Definition list3 (a : K) : list Fr := [k0 a; k1 a; k2 a].
Definition r_val (r : rhs) : option (list Fr) :=
  match r with
  | RScal e => match x_val e with Some a => Some [a] | None => None end
  | RVec e0 e1 e2 => match x_val e0, x_val e1, x_val e2 with Some a, Some b, Some c => Some [a; b; c] | _, _, _ => None end
  | RWhole t => match t_three t with Some a => Some (list3 a) | None => None end
  | RCMul a b => match a_val a, a_val b with Some x, Some y => Some (list3 (kmul x y)) | _, _ => None end
  | RCMulAdd a b c =>
      match a_val a, a_val b, a_val c with Some x, Some y, Some z => Some (list3 (kadd (kmul x y) z)) | _, _, _ => None end
  end.
Definition s_holds (s : txt * rhs) : Prop := r_val (snd s) = Some (env (fst s)).

(* lines 460-557, the body of VerifyEvaluations with everything but the last three lines; [base] is the index written at lines
   539-540 (starkinfo.ev_idx of qs[0]), the arrays of signals are functions; nBits and q_deg are above 0 *)
Definition ve_body (prog : list (txt * rhs)) (nbits qdeg base : nat) (zmul xacc qstep qacc : nat -> K) (qz : K) : Prop :=
  (exists xi, t_three (TChal 7) = Some xi /\
    forall i, i < nbits -> zmul i = match i with O => kmul xi xi | S j => kmul (zmul j) (zmul j) end) /\
  env TZ = [fsub (k0 (zmul (nbits - 1))) f1; k1 (zmul (nbits - 1)); k2 (zmul (nbits - 1))] /\
  Forall s_holds prog /\
  (forall i, i < qdeg ->
    match i with
    | O => xacc 0 = mkK f1 f0 f0 /\ t_three (TEval base) = Some (qacc 0)
    | S j => xacc i = kmul (xacc j) (zmul (nbits - 1)) /\
             (exists e, t_three (TEval (base + i)) = Some e /\ qstep j = kmul (xacc i) e) /\
             qacc i = kadd (qacc j) (qstep j)
    end) /\
  exists z, t_three TZ = Some z /\ qz = kmul (qacc (qdeg - 1)) z.
(* lines 546-552: the final comparison *)
Definition ve_final (t : txt) (enable : Fr) (qz : K) : Prop :=
  exists p, t_three t = Some p /\ fmul enable (fsub (k0 p) (k0 qz)) = f0 /\ fmul enable (fsub (k1 p) (k1 qz)) = f0 /\
    fmul enable (fsub (k2 p) (k2 qz)) = f0.
End Text.
