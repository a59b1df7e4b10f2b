(* Small functions standing for Poseidon in the examples; no part of the code. *)
From Verif Require Import Base GlModel FrField F3gModel PolyModel Roots ListAux HashModel FriModel.
Open Scope nat_scope.

(* words folded in one after the other, by doubling and adding; the states in reverse order *)
Definition toy (inp cap : list Fr) : list Fr :=
  let accs := fold_left (fun l x => fadd (fadd (hd f1 l) (hd f1 l)) x :: l) (inp ++ cap) [] in
  map (fun k => nth k accs f0) (seq 0 12).

Lemma toy_len : forall i s, length (toy i s) = 12.
Proof. reflexivity. Qed.

Definition toyp (inp : list Z) (st : Z) : list Z :=
  map (fun k => fold_left (fun acc x => (acc * (Z.of_nat k + 3) + x) mod 1000003)%Z (st :: inp) 1%Z) (seq 0 17).

Definition toyq (inp : list Z) (st : Z) (n : nat) : res (list Z) := Ok (firstn n (toyp inp st)).

Lemma toyq_ok : (forall i s, length (toyp i s) = 17) /\
  (forall i s n, length i = 16 -> n <= 17 -> toyq i s n = Ok (firstn n (toyp i s))).
Proof. split; reflexivity. Qed.

(* a FRI instance: four values of a polynomial on the shifted domain, opened one by one *)
Definition mix (inp cap : list Fr) : list Fr :=
  map (fun k => fadd (nth k (inp ++ cap) f0) (fof (Z.of_nat k + 1))) (seq 1 12).
Lemma mix_len : forall i s, length (mix i s) = 12.
Proof. reflexivity. Qed.
Definition toy_pol (p : list Z) : list F3G :=
  let w := e_from (root 2) in
  map (fun i => eval_pol (F := opsE) (map (fun c => e_new (fof c) (fof (c * c)) f0) p)
     (e_mul (e_from SHIFT) (e_exp w (Z.of_nat i)))) (seq 0 4).
Definition toy_open (pol : list F3G) (y : nat) : list opening :=
  match nth_error pol y with Some e => [([c0 e; c1 e; c2 e], [])] | None => [] end.
Definition toy_check (o : list opening) (y : nat) : res (list F3G) :=
  match o with [(w, _)] => FriModel.split3 w | _ => Err end.
Lemma toy_opens : forall pol, Forall (fun e => d3 e = true) pol -> forall y, y < length pol ->
  toy_check (toy_open pol y) y = Ok [nth y pol e_ZERO].
Proof.
  intros pol F y L. unfold toy_open. destruct (nth_error pol y) as [e|] eqn:E; [|apply nth_error_None in E; lia].
  rewrite (nth_error_nth _ _ _ E). apply nth_error_In in E. rewrite Forall_forall in F. specialize (F e E).
  destruct e as [a b c d]. cbn in F. subst d. reflexivity.
Qed.
(* the verifier on a proof without folding: a last polynomial of four values and one query *)
Definition toy_last (l : list Z) : list F3G := map (fun z => e_new (fof z) f0 f0) l.
Definition toy_verify (md : nat) (l : list Z) : res bool :=
  fri_verify mix toy_check 2 md 1 [2] tr_new (mkFP [mkQ [toy_open (toy_last l) 0] [f0; f0; f0; f0]] (toy_last l)).
