(* Model of algebraic/src/circom_circuit.rs:57-157 (algebraic-gpu has the same code over another library): a circom
   circuit handed to the constraint system of a prover or of a setup. The field is any type of scalars. Of bellman's
   ConstraintSystem the part the code calls is modelled: alloc_input and alloc append a variable, whose value is computed
   by a prover but not by a setup, enforce appends a constraint, and a linear combination keeps its terms in order. *)
From Verif Require Import Base.
Open Scope nat_scope.
Open Scope list_scope.
Open Scope res_scope.

Section Synth.
  Variable F : Type.
  (* lines 27-31: three lists of wire and coefficient *)
  Definition lcd : Type := list (nat * F).
  Definition constraint : Type := lcd * lcd * lcd.
  (* lines 48-57 R1CS; num_variables, num_outputs and the custom gates are not read here *)
  Record r1cs : Type := mkR1 { num_inputs : nat; num_aux : nat; constraints : list constraint }.
  (* lines 59-66 CircomCircuit *)
  Record circuit : Type := mkCirc { c_r1cs : r1cs; c_witness : option (list F); c_map : option (list nat); c_offset : nat }.
  (* a range of a slice *)
  Definition slice {A} (l : list A) (lo hi : nat) : res (list A) :=
    if (lo <=? hi) && (hi <=? length l) then Ok (firstn (hi - lo) (skipn lo l)) else Panic.
  (* lines 69-77 *)
  Definition get_public_inputs (c : circuit) : res (option (list F)) :=
    match c_witness c with
    | None => Ok None
    | Some w =>
        match c_map c with
        | None => do l <- slice w 1 (num_inputs (c_r1cs c)); Ok (Some l)
        | Some m => do l <- slice m 1 (num_inputs (c_r1cs c)); do v <- mapM (vget w) l; Ok (Some v)
        end
    end.

  (* bellman: Index, and a constraint system with its variables and constraints; Inputs start with the constant one *)
  Inductive index : Type := Input (i : nat) | Aux (i : nat).
  Definition lc : Type := list (F * index).
  Record cs : Type := mkCs { cs_in : list (option F); cs_aux : list (option F); cs_cons : list (lc * lc * lc) }.
  (* the closure of a value is called by a prover only *)
  Definition value_of (proving : bool) (v : res F) : res (option F) := if proving then do x <- v; Ok (Some x) else Ok None.
  (* lines 99-109 and 115-127: the value of wire i; from_str of the text "alloc ..." fails *)
  Definition wire (c : circuit) (i : nat) : res F :=
    match c_witness c with
    | None => Panic
    | Some w => match c_map c with None => vget w i | Some m => do j <- vget m i; vget w j end
    end.
  (* lines 96-112 *)
  Definition alloc_inputs (proving : bool) (c : circuit) (s : cs) : res cs :=
    foldM (fun s i => do v <- value_of proving (wire c i); Ok (mkCs (cs_in s ++ [v]) (cs_aux s) (cs_cons s))) (seq 1 (num_inputs (c_r1cs c) - 1)) s.
  (* lines 113-129 *)
  Definition alloc_aux (proving : bool) (c : circuit) (s : cs) : res cs :=
    foldM (fun s i => do v <- value_of proving (wire c (i + num_inputs (c_r1cs c))); Ok (mkCs (cs_in s) (cs_aux s ++ [v]) (cs_cons s))) (seq 0 (num_aux (c_r1cs c))) s.
  (* lines 131-137 *)
  Definition make_index (c : circuit) (i : nat) : index :=
    if i <? num_inputs (c_r1cs c) then Input i else Aux (i - num_inputs (c_r1cs c) + c_offset c).
  (* lines 138-145 *)
  Definition make_lc (c : circuit) (d : lcd) : lc := fold_left (fun l t => l ++ [(snd t, make_index c (fst t))]) d [].
  (* lines 146-156 *)
  Definition is_empty {A} (l : list A) : bool := match l with [] => true | _ => false end.
  Definition enforce (c : circuit) (s : cs) (k : constraint) : cs :=
    let '(x, y, z) := k in
    if negb ((is_empty x || is_empty y) && is_empty z) then mkCs (cs_in s) (cs_aux s) (cs_cons s ++ [(make_lc c x, make_lc c y, make_lc c z)]) else s.
  (* lines 93-157 *)
  Definition synthesize (proving : bool) (c : circuit) (s : cs) : res cs :=
    do s <- alloc_inputs proving c s; do s <- alloc_aux proving c s;
    Ok (fold_left (enforce c) (constraints (c_r1cs c)) s).
End Synth.

Arguments num_inputs {F}. Arguments num_aux {F}. Arguments constraints {F}. Arguments mkR1 {F}. Arguments mkCirc {F}.
Arguments c_r1cs {F}. Arguments c_witness {F}. Arguments c_map {F}. Arguments c_offset {F}. Arguments get_public_inputs {F}.
Arguments cs_in {F}. Arguments cs_aux {F}. Arguments cs_cons {F}. Arguments mkCs {F}. Arguments value_of {F}. Arguments wire {F}.
Arguments alloc_inputs {F}. Arguments alloc_aux {F}. Arguments make_index {F}. Arguments make_lc {F}. Arguments enforce {F}. Arguments synthesize {F}.
