(* Model of the templates VerifyQuery and MapValues that starky/src/stark_verifier_circom_onchain.rs writes into the final verifier
   circuit, over the field of prime order [r]; the function roots is the table of fft.circom (circ_roots). *)
From Verif Require Import Base GlModel FrField Cubic PolyModel CodegenModel InterpModel UnrollModel CircModel OnchModel.
Open Scope nat_scope.

(* SHIFT.as_int() in the text *)
Definition oq_shift : Z := fint SHIFT.
Definition bitz (b : bool) : Z := if b then 1%Z else 0%Z.
(* lines 721-810 map_values; [vals t] are the integers of vals{t}; a dimension other than 1 and 3 panics *)
Definition om_holds (env : txt -> list Z) (pm : list (sec * nat * nat)) (ms : nat -> list nat) (vals : nat -> list Z) : Prop :=
  forall t i p s pos dim, 1 <= t <= 4 -> nth_error (ms t) i = Some p -> nth_error pm p = Some (s, pos, dim) ->
  match dim with
  | 1 => exists a, nth_error (vals t) pos = Some a /\ env (TTree t i) = [a]
  | 3 => exists a b c, nth_error (vals t) pos = Some a /\ nth_error (vals t) (pos + 1) = Some b /\ nth_error (vals t) (pos + 2) = Some c /\
           env (TTree t i) = [a; b; c]
  | _ => False
  end.
Section Query.
Variable r : Z.
Variable env : txt -> list Z.
(* lines 619-658: [x 0] is the first factor, [x i] the output of xacc[i-1]; the last one is X, also with a single bit *)
Definition oq_point (ext : nat) (ys : nat -> bool) (x : nat -> Z) : Prop :=
  x 0 = (bitz (ys 0%nat) * (oq_shift * nth ext circ_roots 0%Z - oq_shift) + oq_shift)%Z /\
  forall i, S i < ext -> GLMul r (x i) (bitz (ys (S i)) * (nth (ext - S i)%nat circ_roots 0 - 1) + 1)%Z (x (S i)).
(* lines 660-698 *)
Definition oq_quot (X : Z) (den d : sig3) (t : txt) : Prop :=
  GLCInv r den d /\ exists a b c, env t = [a; b; c] /\ GLCMul r (X, 0, 0)%Z d (a, b, c).
Definition oq_div (nb : nat) (X : Z) (d1 d2 : sig3) : Prop :=
  exists x0 x1 x2 w0 w1 w2, oz3 env (TChal 7) = Some (x0, x1, x2) /\
    oq_quot X (X - x0 + gl_p, - x1 + gl_p, - x2 + gl_p)%Z d1 TXd /\
    GLCMul r (nth nb circ_roots 0, 0, 0)%Z (x0, x1, x2) (w0, w1, w2) /\
    oq_quot X (X - w0 + gl_p, - w1 + gl_p, - w2 + gl_p)%Z d2 TXdw.
(* lines 533-719 VerifyQuery; [prog] and [t] are the text of verifier_query_code and its result *)
Definition oq_body (pm : list (sec * nat * nat)) (ms : nat -> list nat) (vals : nat -> list Z) (nb ext : nat)
    (ys : nat -> bool) (prog : list (txt * orhs)) (t : txt) (out : sig3) : Prop :=
  om_holds env pm ms vals /\
  (exists x d1 d2, oq_point ext ys x /\ oq_div nb (x (ext - 1)) d1 d2) /\
  Forall (o_holds r env) prog /\
  exists p, oz3 env t = Some p /\ GLCNorm r p out.
End Query.
