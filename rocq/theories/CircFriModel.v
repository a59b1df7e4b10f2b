(* One query of one FRI step, and the check of the last polynomial, in the circuit that
   starky/src/stark_verifier_circom_onchain.rs writes, with its signal [enable] set to one.
   Signals are as in CircModel. *)
From Verif Require Import Base GlModel FrField F3gModel PolyModel CircModel.
Open Scope Z_scope.

(* stark_verifier_circom_onchain.rs:1375-1377 and 1371-1374: numbers in the text; [ext] is nBitsExt and
   [pb] the nBits of the step before *)
Definition fold_shift (ext pb : nat) : F3G := e_exp (e_from SHIFT) (2 ^ Z.of_nat (ext - pb)).
Definition fold_e0 (ext pb : nat) : Z := e_as_int (e_inv (fold_shift ext pb)).
Definition fold_e1 (ext pb : nat) : Z := e_as_int (e_inv (e_mul (fold_shift ext pb) (e_from (mg_down (32 - pb))))).

Section Step.
Variable r : Z.

(* stark_verifier_circom_onchain.rs:1381-1390 and 1405: s_sx[i-1] for the bits from number [i] on, and s_X,
   the output of the last one *)
Fixpoint sx_loop (pb i : nat) (ys : list Z) (acc out : Z) : Prop :=
  match ys with
  | [] => out = acc
  | y :: t => exists o, GLMul r acc (y * (inv1 (nth (pb - i) circ_roots 0) - 1) + 1) o /\ sx_loop pb (S i) t o out
  end.
(* a step of one bit would read s_sx[-1] and has no meaning *)
Definition fold_point (ext pb : nat) (ys : list Z) (X : Z) : Prop :=
  match ys with
  | y0 :: y1 :: t => sx_loop pb 1 (y1 :: t) (y0 * (fold_e1 ext pb - fold_e0 ext pb) + fold_e0 ext pb) X
  | _ => False
  end.

(* stark_verifier_circom_onchain.rs:1463-1502: the value of the next step or of the last polynomial *)
Definition low_value (vals : list sig3) (key : list Z) (low : sig3) : Prop :=
  TreeSelector r (map coord0 vals) key (coord0 low) /\ TreeSelector r (map coord1 vals) key (coord1 low) /\
  TreeSelector r (map coord2 vals) key (coord2 low).

Definition diff_p (a b : sig3) : sig3 :=
  (coord0 a - coord0 b + gl_p, coord1 a - coord1 b + gl_p, coord2 a - coord2 b + gl_p).

(* stark_verifier_circom_onchain.rs:1319-1510 and 1549: [nb] and [nb2] are the nBits of this step and the
   next, the last one being followed by 0 (1319-1321); [ys] are the nb low bits of the query, [xs] the opened
   values, [sx] the challenge s_specialX, and [vals] the values of the next step or the last polynomial *)
Definition fold_step (ext pb nb nb2 : nat) (ys : list Z) (xs : list sig3) (sx : sig3) (vals : list sig3) : Prop :=
  exists X xp cs ev low,
    fold_point ext pb ys X /\ GLCMul r sx (X, 0, 0) xp /\
    FFT3 r (pb - nb) (fft_ws true (pb - nb)) xs cs /\ EvalPol r cs xp ev /\
    low_value vals (skipn nb2 ys) low /\ GLCNorm r (diff_p ev low) (0, 0, 0).

(* stark_verifier_circom_onchain.rs:1556-1583: the coefficients from 2^maxDegBits on *)
Definition last_pol (nb maxdeg : nat) (final : list sig3) : Prop :=
  exists cs, FFT3 r nb (fft_ws true nb) final cs /\
    forall k, (2 ^ maxdeg <= k < 2 ^ nb)%nat -> nth k cs (0, 0, 0) = (0, 0, 0).
End Step.
