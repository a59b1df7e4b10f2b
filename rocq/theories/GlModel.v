(* Word-level model of the Goldilocks field: fields/src/field_gl.rs.
   A u64 is a Z in [0, 2^64).  `wrapping` operations are written with [mod W].
   Plain `+=` on u64 (add_nocarry 251, mul2 205) is written as the release-mode wrap;
   GlProof shows that it never overflows on field elements, so debug mode agrees. *)
From Verif Require Import Base.
Open Scope Z_scope.

Definition W : Z := 2 ^ 64.

(* field_gl.rs:12 *)
Definition MODULUS : Z := 18446744069414584321.
(* field_gl.rs:16 *)
Definition RR : Z := 18446744065119617025.
(* field_gl.rs:18 *)
Definition R2 : Z := 4294967295.
(* field_gl.rs:20 *)
Definition INV : Z := 18446744069414584319.
(* field_gl.rs:23 *)
Definition GENERATOR : Z := 18446744039349813249.
(* field_gl.rs:25 *)
Definition S_ADICITY : Z := 32.
(* field_gl.rs:27 *)
Definition ROOT_OF_UNITY : Z := 959634606461954525.

(* crate ff (external, ff_ce): adc/sbb/mac_with_carry on u128 intermediates, result and new carry. *)
Definition adc (a b carry : Z) : Z * Z :=
  let t := a + b + carry in (t mod W, t / W).
Definition sbb (a b borrow : Z) : Z * Z :=
  let t := W + a - b - borrow in (t mod W, if t / W =? 0 then 1 else 0).
Definition mac_with_carry (a b c carry : Z) : Z * Z :=
  let t := a + b * c + carry in (t mod W, t / W).

(* field_gl.rs:244-253 FrRepr::add_nocarry *)
Definition add_nocarry (a b : Z) : Z :=
  let '(s, carry) := adc a b 0 in
  if 0 <? carry then (s + R2) mod W else s.

(* field_gl.rs:255-260 FrRepr::sub_noborrow *)
Definition sub_noborrow (a b : Z) : Z := fst (sbb a b 0).

(* field_gl.rs:513-515 is_valid *)
Definition is_valid (a : Z) : bool := a <? MODULUS.

(* field_gl.rs:519-523 reduce *)
Definition reduce (a : Z) : Z := if is_valid a then a else sub_noborrow a MODULUS.

(* field_gl.rs:525-538 mont_reduce *)
Definition mont_reduce (r0 r1 : Z) : Z :=
  let k := (r0 * INV) mod W in
  let '(_, carry) := mac_with_carry r0 k MODULUS 0 in
  let '(r1, carry) := mac_with_carry r1 k 0 carry in
  let '(r2, _) := adc 0 0 carry in
  let k := (r1 * INV) mod W in
  let '(_, carry) := mac_with_carry r1 k MODULUS 0 in
  let '(r2, _) := mac_with_carry r2 k 0 carry in
  reduce r2.

(* field_gl.rs:454-458 mul_assign, 460-462 square *)
Definition mul (a b : Z) : Z :=
  let '(r0, carry) := mac_with_carry 0 a b 0 in mont_reduce r0 carry.
Definition square (a : Z) : Z := mul a a.

(* field_gl.rs:385-388 add_assign *)
Definition add (a b : Z) : Z := reduce (add_nocarry a b).

(* field_gl.rs:196-207 FrRepr::mul2 *)
Definition mul2 (a : Z) : Z :=
  let last := a / 2 ^ 63 in
  let i := (a * 2) mod W in
  if 0 <? last then (i + R2) mod W else i.

(* field_gl.rs:390-393 double *)
Definition double (a : Z) : Z := reduce (mul2 a).

(* field_gl.rs:395-403 sub_assign *)
Definition sub (a b : Z) : Z :=
  if a <? b then add_nocarry a (sub_noborrow MODULUS b) else sub_noborrow a b.

(* field_gl.rs:405-411 negate *)
Definition neg (a : Z) : Z := if a =? 0 then a else sub_noborrow MODULUS a.

(* field_gl.rs:325-336 from_repr *)
Definition from_repr (r : Z) : res Z := if is_valid r then Ok (mul r R2) else Err.
(* field_gl.rs:337-347 from_raw_repr *)
Definition from_raw_repr (r : Z) : res Z := if is_valid r then Ok r else Err.
(* field_gl.rs:348-352 into_repr, 542-544 as_int *)
Definition into_repr (a : Z) : Z := mont_reduce a 0.
Definition as_int (a : Z) : Z := into_repr a.
(* field_gl.rs:353-356 into_raw_repr *)
Definition into_raw_repr (a : Z) : Z := a.
(* field_gl.rs:496-501 From<u64> for Fr: from_repr(..).unwrap() *)
Definition from_u64 (v : Z) : res Z :=
  match from_repr v with Ok x => Ok x | _ => Panic end.
(* field_gl.rs:503-507 From<Fr> for u64 *)
Definition u64_from_fr (a : Z) : Z := a.

(* field_gl.rs:540-541, 373-379 *)
Definition ZERO : Z := 0.
Definition ONE : Z := RR.

(* repeated squaring, used by exp_acc and sqrt *)
Definition squares (n : nat) (a : Z) : Z := Nat.iter n square a.

(* field_gl.rs:647-653 exp_acc *)
Definition exp_acc (n : nat) (base tail : Z) : Z := mul (squares n base) tail.

(* field_gl.rs:415-449 inverse *)
Definition inverse (self : Z) : option Z :=
  let sf := mul (square self) self in
  let t3 := mul (square sf) self in
  let t6 := exp_acc 3 t3 t3 in
  let t12 := exp_acc 6 t6 t6 in
  let t24 := exp_acc 12 t12 t12 in
  let t30 := exp_acc 6 t24 t6 in
  let t31 := mul (square t30) self in
  let t63 := exp_acc 32 t31 t31 in
  Some (mul (square t63) self).

(* field_gl.rs:624-632 Div: self * rhs.inverse().unwrap() *)
Definition div (a b : Z) : res Z :=
  match inverse b with Some i => Ok (mul a i) | None => Panic end.

(* field_gl.rs:467-479 exp: 64 steps, bit 63 first; r ^= mask & (r ^ b) with mask all ones or zero *)
Definition exp_step (self power r : Z) (i : Z) : Z :=
  let r := square r in
  let b := mul r self in
  let mask := if Z.testbit power i then W - 1 else 0 in
  Z.lxor r (Z.land mask (Z.lxor r b)).
Fixpoint exp_loop (self power r : Z) (n : nat) : Z :=
  match n with
  | O => r
  | S k => exp_loop self power (exp_step self power r (Z.of_nat k)) k
  end.
Definition exp (self power : Z) : Z := exp_loop self power ONE 64.

(* crate ff Field::pow on one 64-bit limb: BitIterator yields bit 63 first;
   squaring starts only after the first set bit. *)
Fixpoint pow_loop (self power res : Z) (found : bool) (n : nat) : Z :=
  match n with
  | O => res
  | S k =>
      let i := Z.testbit power (Z.of_nat k) in
      let '(res, found) := if found then (square res, true) else (res, i) in
      let res := if i then mul res self else res in
      pow_loop self power res found k
  end.
Definition pow (self power : Z) : Z := pow_loop self power ONE false 64.

Inductive legendre_symbol := LZero | LResidue | LNonResidue.

(* field_gl.rs:548-557 legendre *)
Definition legendre (self : Z) : legendre_symbol :=
  let s := pow self 9223372034707292160 in
  if s =? ZERO then LZero else if s =? ONE then LResidue else LNonResidue.

(* field_gl.rs:572-578: least i >= 1 such that t^(2^i) = 1; the loop of the code is unbounded,
   [None] is fuel exhaustion *)
Fixpoint sqrt_order (fuel : nat) (t2i : Z) (i : Z) : option Z :=
  match fuel with
  | O => None
  | S f => if t2i =? ONE then Some i else sqrt_order f (square t2i) (i + 1)
  end.

(* field_gl.rs:567-587 main loop; fuel exhaustion is [Hang], u32 underflow of m-i-1 is [Panic] *)
Fixpoint sqrt_loop (fuel : nat) (c r t m : Z) : res Z :=
  if t =? ONE then Ok r else
  match fuel with
  | O => Hang
  | S f =>
      match sqrt_order 65 (square t) 1 with
      | None => Hang
      | Some i =>
          if m - i - 1 <? 0 then Panic else
          let c := squares (Z.to_nat (m - i - 1)) c in
          let r := mul r c in
          let c := square c in
          let t := mul t c in
          sqrt_loop f c r t i
      end
  end.

(* field_gl.rs:558-591 sqrt *)
Definition sqrt (self : Z) : res (option Z) :=
  match legendre self with
  | LZero => Ok (Some self)
  | LNonResidue => Ok None
  | LResidue =>
      rmap Some (sqrt_loop 65 ROOT_OF_UNITY (pow self 2147483648) (pow self 4294967295) S_ADICITY)
  end.

(* field_gl.rs:163-184 FrRepr::shr; each 64-step swaps in a zero limb *)
Definition shr (a n : Z) : Z :=
  if 128 <=? n then 0
  else let '(a, n) := if 64 <=? n then (0, n - 64) else (a, n) in
       if 0 <? n then Z.shiftr a n else a.
(* field_gl.rs:186-194 FrRepr::div2 *)
Definition div2 (a : Z) : Z := Z.shiftr a 1.
(* field_gl.rs:209-230 FrRepr::shl *)
Definition shl (a n : Z) : Z :=
  if 128 <=? n then 0
  else let '(a, n) := if 64 <=? n then (0, n - 64) else (a, n) in
       if 0 <? n then (Z.shiftl a n) mod W else a.
(* u64::leading_zeros *)
Definition leading_zeros (a : Z) : Z := if a =? 0 then 64 else 63 - Z.log2 a.
(* field_gl.rs:232-242 FrRepr::num_bits: starts from 2*64 although there is one limb *)
Definition num_bits (a : Z) : Z := 2 * 64 - leading_zeros a.

(* field_gl.rs:285-290 Ord for Fr *)
Definition fr_cmp (a b : Z) : comparison := (into_repr a ?= into_repr b).
(* field_gl.rs:271-275 PartialEq for Fr *)
Definition fr_eqb (a b : Z) : bool := a =? b.
