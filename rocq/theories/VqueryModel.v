(* Model of the templates VerifyQuery and MapValues that starky/src/stark_verifier_circom.rs writes into the recursive verifier circuit.
   As in UnrollModel the text is over the Goldilocks field. The template CInv and the function roots are not in the repository: CInv is
   taken to demand in * out = 1, roots to be the table MG of constant.rs. *)
From Verif Require Import Base GlModel FrField Cubic F3gModel PolyModel CodegenModel InterpModel UnrollModel.
Open Scope nat_scope.

(* lines 711-803 map_values: the statements of the template for var_pol_map [pm] and map_sections [ms]; [vals t] is the array vals{t}. A
   dimension other than 1 and 3 panics. *)
Definition mv_holds (env : txt -> list Fr) (pm : list (sec * nat * nat)) (ms : nat -> list nat) (vals : nat -> list Fr) : Prop :=
  forall t i p s pos dim, 1 <= t <= 4 -> nth_error (ms t) i = Some p -> nth_error pm p = Some (s, pos, dim) ->
  match dim with
  | 1 => exists a, nth_error (vals t) pos = Some a /\ env (TTree t i) = [a]
  | 3 => exists a b c, nth_error (vals t) pos = Some a /\ nth_error (vals t) (pos + 1) = Some b /\ nth_error (vals t) (pos + 2) = Some c /\
           env (TTree t i) = [a; b; c]
  | _ => False
  end.

(* roots(k) *)
Definition vq_root (k : nat) : Fr := mg_down (32 - k).
Definition fbit (b : bool) : Fr := if b then f1 else f0.
(* lines 648-660: the point of the query; [ext] is steps[0].nBits, the signals ys are bits *)
Definition vq_xacc (ext : nat) (ys : nat -> bool) (xacc : nat -> Fr) : Prop :=
  xacc 0 = fadd (fmul (fbit (ys 0)) (fsub (fmul SHIFT (vq_root ext)) SHIFT)) SHIFT /\
  forall i, S i < ext -> xacc (S i) = fmul (xacc i) (fadd (fmul (fbit (ys (S i))) (fsub (vq_root (ext - S i)) f1)) f1).
(* lines 662-700: the two quotients; [nb] is nBits *)
Definition vq_div (env : txt -> list Fr) (nb : nat) (x : Fr) (xi d1 d2 : K) : Prop :=
  t_three env (TChal 7) = Some xi /\
  kmul (mkK (fsub x (k0 xi)) (fneg (k1 xi)) (fneg (k2 xi))) d1 = mkK f1 f0 f0 /\
  env TXd = [fmul x (k0 d1); fmul x (k1 d1); fmul x (k2 d1)] /\
  kmul (mkK (fsub x (fmul (vq_root nb) (k0 xi))) (fmul (fneg (vq_root nb)) (k1 xi)) (fmul (fneg (vq_root nb)) (k2 xi))) d2 = mkK f1 f0 f0 /\
  env TXdw = [fmul x (k0 d2); fmul x (k1 d2); fmul x (k2 d2)].
(* lines 561-709 VerifyQuery without its output; [prog] is the text of verifier_query_code *)
Definition vq_body (env : txt -> list Fr) (pm : list (sec * nat * nat)) (ms : nat -> list nat) (vals : nat -> list Fr) (nb ext : nat)
    (ys : nat -> bool) (prog : list (txt * rhs)) : Prop :=
  mv_holds env pm ms vals /\
  (exists xacc xi d1 d2, vq_xacc ext ys xacc /\ vq_div env nb (xacc (ext - 1)) xi d1 d2) /\
  Forall (s_holds env) prog.
