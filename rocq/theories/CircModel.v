(* The circuits of stark-circuits/circuits that compute with Goldilocks elements inside the scalar
   field of a pairing-friendly curve.
   A signal is an integer standing for its class modulo the prime [r] of that field.  [a === b] and
   [a <== b] are equations modulo r, and [a <-- b] constrains nothing.  A template is the relation
   between its inputs and outputs that some assignment of its inner signals satisfies; an output that is
   range-checked is written as the number in [0, r).
   Num2Bits and Bits2Num are circomlib's (bitify.circom), which is not in this repository: Num2Bits(n)
   asks for n signals b with b*(b-1) === 0 and with in === sum of b_i*2^i. *)
From Verif Require Import Base.
From Coq Require Import Znumtheory.
Open Scope Z_scope.

(* stark-circuits/circuits/gl.circom:10 and others: var p *)
Definition gl_p : Z := 18446744069414584321.

(* fft.circom:6-43 *)
Definition circ_roots : list Z := [
  1; 18446744069414584320; 281474976710656; 18446744069397807105; 17293822564807737345; 70368744161280;
  549755813888; 17870292113338400769; 13797081185216407910; 1803076106186727246; 11353340290879379826;
  455906449640507599; 17492915097719143606; 1532612707718625687; 16207902636198568418; 17776499369601055404;
  6115771955107415310; 12380578893860276750; 9306717745644682924; 18146160046829613826; 3511170319078647661;
  17654865857378133588; 5416168637041100469; 16905767614792059275; 9713644485405565297; 5456943929260765144;
  17096174751763063430; 1213594585890690845; 6414415596519834757; 16116352524544190054; 9123114210336311365;
  4614640910117430873; 1753635133440165772].

(* gl.circom:201-221 on integers: the numbers that occur stay far below r, so that the field's signed
   comparison is the integers'; 200 rounds are more than the algorithm needs below 2^64 *)
Fixpoint inv1_loop (fuel : nat) (t rr newt newr : Z) : Z :=
  match fuel with
  | O => t
  | S f => if newr =? 0 then t
           else inv1_loop f newt newr (t - rr / newr * newt) (rr - rr / newr * newr)
  end.
Definition inv1 (a : Z) : Z :=
  let t := inv1_loop 200 0 gl_p 1 (a mod gl_p) in if t <? 0 then t + gl_p else t.

(* fft.circom:54-66 *)
Fixpoint ws_from (n : nat) (cur w : Z) : list Z :=
  match n with O => [] | S m => cur :: ws_from m ((cur * w) mod gl_p) w end.
Definition fft_ws (inv : bool) (nbits : nat) : list Z :=
  if inv then ws_from (2 ^ nbits) (inv1 (2 ^ Z.of_nat nbits)) (inv1 (nth nbits circ_roots 0))
  else ws_from (2 ^ nbits) 1 (nth nbits circ_roots 0).

Section Circuit.
Variable r : Z.

Definition eqr (a b : Z) : Prop := a mod r = b mod r.
Definition felt (x : Z) : Prop := 0 <= x < r.

(* circomlib bitify.circom, Num2Bits and Bits2Num *)
Fixpoint bsum (bs : list Z) : Z := match bs with [] => 0 | b :: t => b + 2 * bsum t end.
Definition is_bit (b : Z) : Prop := felt b /\ eqr (b * (b - 1)) 0.
Definition Num2Bits (n : nat) (x : Z) (bs : list Z) : Prop :=
  length bs = n /\ Forall is_bit bs /\ felt x /\ eqr (bsum bs) x.
Definition ranged (n : nat) (x : Z) : Prop := exists bs, Num2Bits n x bs.

(** * gl.circom *)

(* gl.circom:6-21 *)
Definition GLNorm (i out : Z) : Prop :=
  exists k, ranged 10 k /\ ranged 64 out /\ eqr (i + 16 * gl_p) (k * gl_p + out).

(* gl.circom:44-65 *)
Definition GLMul (a b out : Z) : Prop :=
  exists k m, eqr m ((a + 16 * gl_p) * (b + 16 * gl_p)) /\
    ranged 80 k /\ ranged 64 out /\ eqr m (k * gl_p + out).

(* gl.circom:67-89: the third input is added without the shift *)
Definition GLMulAdd (a b c out : Z) : Prop :=
  exists k m, eqr m ((a + 16 * gl_p) * (b + 16 * gl_p) + c) /\
    ranged 80 k /\ ranged 64 out /\ eqr m (k * gl_p + out).

(* triples of signals *)
Definition sig3 : Type := (Z * Z * Z)%type.
Definition on3 (f : Z -> Z -> Prop) (x y : sig3) : Prop :=
  let '(x0, x1, x2) := x in let '(y0, y1, y2) := y in f x0 y0 /\ f x1 y1 /\ f x2 y2.

(* gl.circom:23-42 *)
Definition GLCNorm (i out : sig3) : Prop := on3 GLNorm i out.

(* gl.circom:99-111 and 154-166: the signals A..G and m, the last with [add] on top *)
Definition karatsuba (a b add m : sig3) : Prop :=
  let '(a0, a1, a2) := a in let '(b0, b1, b2) := b in
  let '(c0, c1, c2) := add in let '(m0, m1, m2) := m in
  let s x := x + 16 * gl_p in
  exists A B C D E F G,
    eqr A ((s a0 + s a1) * (s b0 + s b1)) /\
    eqr B ((s a0 + s a2) * (s b0 + s b2)) /\
    eqr C ((s a1 + s a2) * (s b1 + s b2)) /\
    eqr D (s a0 * s b0) /\ eqr E (s a1 * s b1) /\ eqr F (s a2 * s b2) /\ eqr G (D - E) /\
    eqr m0 (C + G - F + c0) /\ eqr m1 (A + C - E - E - D + c1) /\ eqr m2 (B - G + c2).

(* gl.circom:113-141 and 168-196: m = k*p + out with 80 and 64 bits *)
Definition reduced (m out : Z) : Prop := exists k, ranged 80 k /\ ranged 64 out /\ eqr m (k * gl_p + out).

(* gl.circom:92-143 *)
Definition GLCMul (a b out : sig3) : Prop := exists m, karatsuba a b (0, 0, 0) m /\ on3 reduced m out.

(* gl.circom:146-198 *)
Definition GLCMulAdd (a b c out : sig3) : Prop :=
  let '(c0, c1, c2) := c in
  exists m, karatsuba a b (c0 + 16 * gl_p, c1 + 16 * gl_p, c2 + 16 * gl_p) m /\ on3 reduced m out.

(* gl.circom:223-242: the value of _inv1 is a hint, the product is checked *)
Definition GLInv (i out : Z) : Prop := ranged 64 out /\ exists c, GLMul i out c /\ eqr c 1.

(* gl.circom:245-308 *)
Definition GLCInv (i out : sig3) : Prop :=
  (let '(o0, o1, o2) := out in ranged 64 o0 /\ ranged 64 o1 /\ ranged 64 o2) /\
  exists c0 c1 c2, GLCMul i out (c0, c1, c2) /\ eqr c0 1 /\ eqr c1 0 /\ eqr c2 0.

(** * evalpol.circom *)

(* evalpol.circom:5-40: [pol] from the highest coefficient on, which is the order of the loop; EvalPol(0)
   indexes pol[-1] and has no meaning *)
Fixpoint eval_loop (x acc : sig3) (rest : list sig3) (out : sig3) : Prop :=
  match rest with
  | [] => on3 eqr out acc
  | c :: t => exists y, GLCMulAdd acc x c y /\ eval_loop x y t out
  end.
Definition EvalPol (pol : list sig3) (x out : sig3) : Prop :=
  match rev pol with [] => False | h :: t => eval_loop x h t out end.

(** * fft.circom *)

(* fft.circom:68-77: sum[i][e] over the inputs *)
Definition fft_sum (ws : list Z) (n : nat) (i : nat) (xs : list Z) : Z :=
  fold_left (fun s jx => s + nth ((i * fst jx) mod n) ws 0 * snd jx) (combine (seq 0 (length xs)) xs) 0.
(* fft.circom:45-92, for one of the three coordinates; [ws] are the numbers computed at 54-66 *)
Definition FFT (nbits : nat) (ws : list Z) (xs outs : list Z) : Prop :=
  length xs = (2 ^ nbits)%nat /\ length outs = (2 ^ nbits)%nat /\
  forall i, (i < 2 ^ nbits)%nat -> exists k,
    ranged (64 + nbits + 1) k /\ ranged 64 (nth i outs 0) /\
    eqr (k * gl_p + nth i outs 0) (fft_sum ws (2 ^ nbits) i xs).

(* fft.circom:45-92, the three coordinates *)
Definition coord0 (x : sig3) : Z := fst (fst x).
Definition coord1 (x : sig3) : Z := snd (fst x).
Definition coord2 (x : sig3) : Z := snd x.
Definition FFT3 (nbits : nat) (ws : list Z) (xs outs : list sig3) : Prop :=
  FFT nbits ws (map coord0 xs) (map coord0 outs) /\ FFT nbits ws (map coord1 xs) (map coord1 outs) /\
  FFT nbits ws (map coord2 xs) (map coord2 outs).

(** * bn1togl3.circom *)

(* bn1togl3.circom:6-24 *)
Definition BN1toGL3 (i : Z) (out : sig3) : Prop :=
  let '(o0, o1, o2) := out in
  exists bs, Num2Bits 255 i bs /\
    eqr o0 (bsum (firstn 64 bs)) /\ eqr o1 (bsum (firstn 64 (skipn 64 bs))) /\
    eqr o2 (bsum (firstn 64 (skipn 128 bs))).

(** * compconstant64.circom *)

(* compconstant64.circom:20-36: parts[i] for the pair of bits (sl, sm) and the pair (clsb, cmsb) of the
   constant *)
Definition part (cl cm : bool) (e sl sm : Z) : Z :=
  match cm, cl with
  | false, false => sm * e + sl * e - sm * sl * e
  | false, true => - e + e * sl + e * 2 * sm - e * sm * sl
  | true, false => e * sm * sl - e + e * sm
  | true, true => e * sm * sl - e
  end.
(* compconstant64.circom:20-46: the sum of the parts of the pairs from index [i] on *)
Fixpoint parts_sum (ct : Z) (i : nat) (ins : list Z) : Z :=
  match ins with
  | sl :: sm :: rest =>
    part (Z.testbit ct (Z.of_nat i * 2)) (Z.testbit ct (Z.of_nat i * 2 + 1)) (2 ^ Z.of_nat i) sl sm
    + parts_sum ct (S i) rest
  | _ => 0
  end.
(* compconstant64.circom:5-52; the templates' signals sum[i] are the partial sums *)
Definition CompConstant64 (ct : Z) (ins : list Z) (out : Z) : Prop :=
  exists s bs, eqr s (2 ^ 32 - 1 + parts_sum ct 0 ins) /\ Num2Bits 33 s bs /\ eqr out (nth 32 bs 0).

(** * treeselector.circom *)

(* treeselector.circom:16-28: one level, for one coordinate *)
Fixpoint select_level (k : Z) (vs : list Z) (out : list Z) : Prop :=
  match vs, out with
  | v0 :: v1 :: vs', o :: out' => eqr o (k * (v1 - v0) + v0) /\ select_level k vs' out'
  | [], [] => True
  | _, _ => False
  end.
(* treeselector.circom:3-35; the last level's only signal is the output.  With no levels the template
   reads im[-1] and has no meaning. *)
Fixpoint select_levels (ks : list Z) (vs : list Z) (out : Z) : Prop :=
  match ks with
  | [] => match vs with [v] => eqr out v | _ => False end
  | k :: ks' => exists im, select_level k vs im /\ select_levels ks' im out
  end.
Definition TreeSelector (vs ks : list Z) (out : Z) : Prop := ks <> [] /\ select_levels ks vs out.

End Circuit.

(** * Hashing of opened rows and Merkle paths *)

Section Hash.
Variable r : Z.
(* PoseidonEx(n,2).out[1] (poseidon.circom:67-193) of the inputs and the initial state; it is the
   function that C68 relates to the Rust code, and here any function of field elements *)
Variable hash : list Z -> Z -> Z.

(* linearhash.circom:48-78: the packed elements so far, sAc and nAc *)
Definition pack_step (s : list Z * Z * nat) (x : Z) : list Z * Z * nat :=
  let '(vals, ac, n) := s in
  let ac := (ac + 2 ^ (64 * Z.of_nat n) * x) mod r in
  if (S n =? 3)%nat then (vals ++ [ac], 0, O) else (vals, ac, S n).
(* linearhash.circom:9-23 and 48-78: also the single element of the first branch *)
Definition packed (ins : list Z) : list Z :=
  let '(vals, ac, n) := fold_left pack_step ins ([], 0, O) in
  if (0 <? n)%nat then vals ++ [ac] else vals.

(* blocks of sixteen, the last one shorter *)
Fixpoint blocks16 (fuel : nat) (vals : list Z) : list (list Z) :=
  match fuel, vals with
  | S f, _ :: _ => firstn 16 vals :: blocks16 f (skipn 16 vals)
  | _, _ => []
  end.

(* linearhash.circom:5-96, the inputs in[i][j] in row order; without inputs the template has no meaning *)
Definition LinearHash (ins : list Z) : option Z :=
  match packed ins with
  | [] => None
  | [v] => Some v
  | vals => Some (fold_left (fun st b => hash b st) (blocks16 (length vals) vals) 0)
  end.

(* merkle.circom:30-79: the sixteen selectors *)
Definition selectors (a b c d : Z) : list Z :=
  let ab := a * b in let ac := a * c in let ad := a * d in let bc := b * c in let bd := b * d in
  let cd := c * d in let abc := ab * c in let abd := ab * d in let acd := ac * d in let bcd := bc * d in
  let abcd := ab * cd in
  [1 - d - c + cd - b + bd + bc - bcd - a + ad + ac - acd + ab - abd - abc + abcd;
   d - cd - bd + bcd - ad + acd + abd - abcd;
   c - cd - bc + bcd - ac + acd + abc - abcd;
   cd - bcd - acd + abcd;
   b - bd - bc + bcd - ab + abd + abc - abcd;
   bd - bcd - abd + abcd;
   bc - bcd - abc + abcd;
   bcd - abcd;
   a - ad - ac + acd - ab + abd + abc - abcd;
   ad - acd - abd + abcd;
   ac - acd - abc + abcd;
   acd - abcd;
   ab - abd - abc + abcd;
   abd - abcd;
   abc - abcd;
   abcd].

(* merkle.circom:83-85 *)
Definition level_inputs (key : list Z) (value : Z) (sibs : list Z) : list Z :=
  map (fun sx => (fst sx * (value - snd sx) + snd sx) mod r)
      (combine (selectors (nth 3 key 0) (nth 2 key 0) (nth 1 key 0) (nth 0 key 0)) sibs).

(* merkle.circom:5-107; [sibs] has one row of sixteen per level *)
Fixpoint Merkle (key : list Z) (value : Z) (sibs : list (list Z)) : Z :=
  match sibs with
  | [] => value
  | s :: rest => Merkle (skipn 4 key) (hash (level_inputs key value s) 0) rest
  end.

(* merklehash.circom:7-37 *)
Definition MerkleHash (key : list Z) (values : list Z) (sibs : list (list Z)) : option Z :=
  match LinearHash values with Some v => Some (Merkle key v sibs) | None => None end.

End Hash.
