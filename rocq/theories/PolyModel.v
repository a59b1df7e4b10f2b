(* Model of starky/src/polutils.rs, starky/src/fft.rs and the tables of starky/src/constant.rs and
   starky/src/helper.rs they use. The code is generic over the trait FieldExtension; so is the model,
   over a record of operations. *)
From Verif Require Import Base GlModel FrField F3gModel.
Open Scope Z_scope.
Open Scope res_scope.

(* the operations of traits.rs:65-120 (FieldExtension) used by the polynomial code *)
Record FOps : Type := mkOps {
  car :> Type;
  o_zero : car; o_one : car;
  o_add : car -> car -> car; o_sub : car -> car -> car; o_mul : car -> car -> car;
  o_inv : car -> car; o_of : Fr -> car }.
Arguments o_zero {f}. Arguments o_one {f}. Arguments o_add {f}. Arguments o_sub {f}.
Arguments o_mul {f}. Arguments o_inv {f}. Arguments o_of {f}.

(* f3g.rs implements the trait *)
Definition opsE : FOps := mkOps F3G e_ZERO e_ONE e_add e_sub e_mul e_inv e_from.

(* constant.rs:52 SHIFT, 53 SHIFT_INV *)
Definition SHIFT : Fr := fof 49.
Definition SHIFT_INV : Fr := finv SHIFT.
(* constant.rs:54-68 MG: w[32] = 7^(2^32-1), w[n] = w[n+1]*w[n+1]; [mg_down k] is w[32-k] *)
Fixpoint mg_down (k : nat) : Fr :=
  match k with
  | O => fexp (fof 7) (2 ^ 32 - 1)
  | S k' => let x := mg_down k' in fmul x x
  end.
Fixpoint mgi_down (k : nat) : Fr :=
  match k with
  | O => finv (mg_down 0)
  | S k' => let x := mgi_down k' in fmul x x
  end.
(* MG.0[i] and MG.1[i], vectors of length 33 *)
Definition MG (i : nat) : res Fr := if (i <=? 32)%nat then Ok (mg_down (32 - i)) else Panic.
Definition MGI (i : nat) : res Fr := if (i <=? 32)%nat then Ok (mgi_down (32 - i)) else Panic.

(* helper.rs:26-49 log2_any *)
Definition log2_any (val : Z) : Z :=
  let v0 := val in
  let '(r1, v1) := if Z.land v0 0xFFFF0000 =? 0 then (0, v0) else (16, Z.land v0 0xFFFF0000) in
  let '(r2, v2) := if Z.land v1 0xFF00FF00 =? 0 then (0, v1) else (8, Z.land v1 0xFF00FF00) in
  let '(r3, v3) := if Z.land v2 0xF0F0F0F0 =? 0 then (0, v2) else (4, Z.land v2 0xF0F0F0F0) in
  let '(r4, v4) := if Z.land v3 0xCCCCCCCC =? 0 then (0, v3) else (2, Z.land v3 0xCCCCCCCC) in
  let r5 := if Z.land v4 0xAAAAAAAA =? 0 then 0 else 1 in
  Z.lor (Z.lor (Z.lor (Z.lor r1 r2) r3) r4) r5.

(* helper.rs:16-23 get_ks; ks[0] on the empty vector panics *)
Fixpoint get_ks_from (n : nat) (prev k0 : Fr) : list Fr :=
  match n with O => [] | S m => prev :: get_ks_from m (fmul prev k0) k0 end.
Definition get_ks (n : nat) : res (list Fr) :=
  match n with O => Panic | _ => Ok (get_ks_from n (fof 12275445934081160404) (fof 12275445934081160404)) end.

(* u32::reverse_bits on the low n bits: bit i goes to bit n-1-i *)
Fixpoint rev_bits (n : nat) (x : Z) : Z :=
  match n with O => 0 | S m => (x mod 2) * 2 ^ Z.of_nat m + rev_bits m (x / 2) end.

Section Poly.
  Variable F : FOps.

  (* polutils.rs:5-11 pol_mul_axi: the slice is returned *)
  Fixpoint pol_mul_axi (p : list F) (r acc : F) : list F :=
    match p with [] => [] | pi :: q => o_mul pi r :: pol_mul_axi q (o_mul r acc) acc end.

  (* polutils.rs:13-22 eval_pol: Horner from the last coefficient *)
  Definition horner (x : F) (res pi : F) : F := o_add (o_mul res x) pi.
  Definition eval_pol (p : list F) (x : F) : F :=
    match rev p with [] => o_zero | last :: rest => fold_left (horner x) rest last end.

  (* polutils.rs:36-55 batch_inverse. [prefix] builds tmp[1..]; the backward loop walks the reversed
     lists, prepending res[i]. *)
  Fixpoint prefix (prev : F) (l : list F) : list F :=
    match l with [] => [] | x :: r => let t := o_mul x prev in t :: prefix t r end.
  (* es: elems[i], elems[i-1], ..., elems[1]; ts: tmp[i-1], ..., tmp[0] *)
  Fixpoint binv_back (es ts : list F) (z : F) (res : list F) : list F :=
    match es, ts with
    | e :: es', t :: ts' => binv_back es' ts' (o_mul z e) (o_mul z t :: res)
    | _, _ => z :: res
    end.
  Definition batch_inverse (elems : list F) : list F :=
    match elems with
    | [] => []
    | e0 :: rest =>
        let tmp := e0 :: prefix e0 rest in
        binv_back (rev rest) (tl (rev tmp)) (o_inv (last tmp o_zero)) []
    end.

  (* fft.rs:50-54: buff[reverse_bits(i) >> (32 - bits)] = p[i] *)
  Fixpoint scatter (bits : nat) (i : Z) (p : list F) (buff : list F) : res (list F) :=
    match p with
    | [] => Ok buff
    | pi :: q =>
        let r := Z.shiftr (rev_bits 32 i) (32 - Z.of_nat bits) in
        do buff' <- vset buff (Z.to_nat r) pi;
        scatter bits (i + 1) q buff'
    end.

  (* fft.rs:62-68: the butterflies of one block; cnt = mdiv2 - j iterations remain *)
  Fixpoint butterflies (cnt k j mdiv2 : nat) (w winc : F) (buff : list F) : res (list F) :=
    match cnt with
    | O => Ok buff
    | S cnt' =>
        do b <- vget buff (k + j + mdiv2);
        let t := o_mul w b in
        do u <- vget buff (k + j);
        do buff1 <- vset buff (k + j) (o_add u t);
        do buff2 <- vset buff1 (k + j + mdiv2) (o_sub u t);
        butterflies cnt' k (S j) mdiv2 (o_mul w winc) winc buff2
    end.

  (* fft.rs:60-69: for k in (0..n).step_by(m); cnt blocks remain *)
  Fixpoint blocks (cnt k m : nat) (winc : F) (buff : list F) : res (list F) :=
    match cnt with
    | O => Ok buff
    | S cnt' =>
        do buff' <- butterflies (m / 2) k 0 (m / 2) o_one winc buff;
        blocks cnt' (k + m) m winc buff'
    end.

  (* fft.rs:56-70: for s in 1..=bits; [winc] = roots[s][1] = ONE * from(MG.0[s]) *)
  Fixpoint stages (cnt s n : nat) (buff : list F) : res (list F) :=
    match cnt with
    | O => Ok buff
    | S cnt' =>
        do g <- MG s;
        let winc := o_mul o_one (o_of g) in
        let m := (2 ^ s)%nat in
        do buff' <- blocks ((n + m - 1) / m) 0 m winc buff;
        stages cnt' (S s) n buff'
    end.

  (* fft.rs:39-72 fft. set_roots(bits) indexes roots[bits] of a vector of length 32, so bits = 32
     panics there. *)
  Definition fft (p : list F) : res (list F) :=
    match p with
    | [] | [_] => Ok p
    | _ =>
        let bits := Z.to_nat (log2_any (Z.of_nat (length p) - 1) + 1) in
        if (32 <=? bits)%nat then Panic
        else if negb (Z.of_nat (length p) =? 2 ^ Z.of_nat bits) then Panic
        else
          let n := length p in
          do buff <- scatter bits 0 p (repeat o_zero n);
          stages bits 1 n buff
    end.

  (* fft.rs:74-83 ifft: res[0] on the empty vector panics; F::from(usize) = from(Fr::from(n)) *)
  Definition ifft (p : list F) : res (list F) :=
    do q <- fft p;
    let n2inv := o_inv (o_of (fof (Z.of_nat (length p)))) in
    match q with
    | [] => Panic
    | q0 :: rest => Ok (o_mul q0 n2inv :: map (fun x => o_mul x n2inv) (rev rest))
    end.

  (* polutils.rs:25-33 extend_pol *)
  Definition extend_pol (p : list F) (extend_bits : nat) : res (list F) :=
    do c <- ifft p;
    let c := pol_mul_axi c o_one (o_of SHIFT) in
    fft (c ++ repeat o_zero (length p * 2 ^ extend_bits - length p)).
End Poly.
Arguments pol_mul_axi {F}. Arguments eval_pol {F}. Arguments batch_inverse {F}.
Arguments fft {F}. Arguments ifft {F}. Arguments extend_pol {F}. Arguments horner {F}.
Arguments prefix {F}. Arguments binv_back {F}. Arguments scatter {F}. Arguments butterflies {F}.
Arguments blocks {F}. Arguments stages {F}.

