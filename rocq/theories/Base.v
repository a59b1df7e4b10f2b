(* Outcome of a modelled Rust call: a value, a returned error, or a panic.
   [Hang] marks a loop of the code that does not terminate. *)
From Coq Require Export ZArith List Bool Lia.
Export ListNotations.

Inductive res (A : Type) : Type :=
| Ok (a : A)
| Err
| Panic
| Hang.
Arguments Ok {A} a.
Arguments Err {A}.
Arguments Panic {A}.
Arguments Hang {A}.

Definition bind {A B} (r : res A) (f : A -> res B) : res B :=
  match r with Ok a => f a | Err => Err | Panic => Panic | Hang => Hang end.

Definition rmap {A B} (f : A -> B) (r : res A) : res B := bind r (fun a => Ok (f a)).

Declare Scope res_scope.
Notation "'do' x <- r ; f" := (bind r (fun x => f))
  (at level 200, x pattern, r at level 100, f at level 200) : res_scope.

(* Vec indexing: out of bounds panics. *)
Definition vget {A} (l : list A) (i : nat) : res A :=
  match nth_error l i with Some a => Ok a | None => Panic end.

(* Vec element assignment: out of bounds panics. *)
Fixpoint vset_aux {A} (l : list A) (i : nat) (a : A) : option (list A) :=
  match l, i with
  | [], _ => None
  | _ :: r, O => Some (a :: r)
  | x :: r, S j => match vset_aux r j a with Some r' => Some (x :: r') | None => None end
  end.
Definition vset {A} (l : list A) (i : nat) (a : A) : res (list A) :=
  match vset_aux l i a with Some r => Ok r | None => Panic end.

(* sequencing a fallible map over a list, left to right *)
Fixpoint mapM {A B} (f : A -> res B) (l : list A) : res (list B) :=
  match l with
  | [] => Ok []
  | a :: r => bind (f a) (fun b => bind (mapM f r) (fun bs => Ok (b :: bs)))
  end.

Fixpoint foldM {A B} (f : B -> A -> res B) (l : list A) (b : B) : res B :=
  match l with
  | [] => Ok b
  | a :: r => bind (f b a) (foldM f r)
  end.
