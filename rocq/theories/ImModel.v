(* Model of the choice of intermediate polynomials in starky/src/starkinfo_cp_prover.rs. Degrees are
   unbounded integers (i32 in the code); a HashMap<usize, bool> is the list of its keys; recursion uses
   fuel, as the expression table may be cyclic. *)
From Verif Require Import Base CodegenModel.
Open Scope nat_scope.
Open Scope res_scope.

(* lines 243-267 get_exp_dim: the degree of an expression *)
Fixpoint max_dims (f : expr -> res Z) (l : list expr) (md : Z) : res Z :=
  match l with [] => Ok md | x :: r => do d <- f x; max_dims f r (if (md <? d)%Z then d else md) end.
Fixpoint exp_deg (fuel : nat) (tbl : list expr) (e : expr) : res Z :=
  match fuel with
  | O => Hang
  | S fuel' =>
      match e_op e with
      | OAdd | OSub | OAddc | OMulc | ONeg => max_dims (exp_deg fuel' tbl) (e_values e) 1%Z
      | OMul =>
          do a <- vget (e_values e) 0; do b <- vget (e_values e) 1;
          do x <- exp_deg fuel' tbl a; do y <- exp_deg fuel' tbl b; Ok (x + y)%Z
      | OMuladd =>
          do a <- vget (e_values e) 0; do b <- vget (e_values e) 1;
          do x <- exp_deg fuel' tbl a; do y <- exp_deg fuel' tbl b;
          do c <- vget (e_values e) 2; do z <- exp_deg fuel' tbl c; Ok (Z.max (x + y) z)
      | OCm | OConst | OX => Ok 1%Z
      | OExp => do i <- unwrap (e_id e); do x <- vget tbl i; exp_deg fuel' tbl x
      | ONumber | OPublic | OChallenge | OEval => Ok 0%Z
      | _ => Panic
      end
  end.

(* the set, the degree and abs_max_d *)
Definition im_res : Type := option (list nat) * Z * Z.
Definition im_mem (i : nat) (s : list nat) : bool := existsb (Nat.eqb i) s.
Definition im_insert (i : nat) (s : list nat) : list nat := if im_mem i s then s else i :: s.
Definition is_numlike (e : expr) : bool := match e_op e with ONumber | OPublic | OChallenge => true | _ => false end.

(* lines 141-153 *)
Fixpoint im_sum (rec : expr -> option (list nat) -> Z -> res im_res) (l : list expr) (s : option (list nat)) (md amd : Z) : res im_res :=
  match l with
  | [] => Ok (s, md, amd)
  | v :: r =>
      do x <- rec v s amd;
      let '(s', d, amd') := x in
      im_sum rec r s' (if (md <? d)%Z then d else md) amd'
  end.
(* lines 189-210. [s] is im_expressions, which is present there. *)
Definition better (e2 eb : option (list nat)) : bool :=
  match e2, eb with
  | None, _ => false
  | Some _, None => true
  | Some a, Some b => length a <? length b
  end.
Definition same_size (eb : option (list nat)) (s : list nat) : bool :=
  match eb with Some b => length b =? length s | None => false end.
Fixpoint im_split (ra rb : option (list nat) -> nat -> Z -> res im_res) (s : list nat) (m : nat) (ls : list nat)
    (eb : option (list nat)) (ed amd : Z) : res im_res :=
  match ls with
  | [] => Ok (eb, ed, amd)
  | l :: r =>
      do x <- ra (Some s) l amd;
      let '(e1, d1, amd1) := x in
      do y <- rb e1 (m - l) amd1;
      let '(e2, d2, amd2) := y in
      let '(eb', ed') := if better e2 eb then (e2, (d1 + d2)%Z) else (eb, ed) in
      if same_size eb' s then Ok (eb', ed', amd2) else im_split ra rb s m r eb' ed' amd2
  end.
(* lines 123-241 _calculate_im_pols *)
Fixpoint im_pols (fuel : nat) (tbl : list expr) (abs : nat) (e : expr) (so : option (list nat)) (m : nat) (amd : Z) : res im_res :=
  match fuel with
  | O => Hang
  | S fuel' =>
      match so with
      | None => Ok (None, (-1)%Z, amd)
      | Some s =>
          match e_op e with
          | OAdd | OSub | OAddc | OMulc | ONeg => im_sum (fun v s' => im_pols fuel' tbl abs v s' m) (e_values e) (Some s) 0%Z amd
          | ONumber | OPublic | OChallenge => Ok (Some s, 0%Z, amd)
          | OX | OConst | OCm => if m <? 1 then Ok (None, (-1)%Z, amd) else Ok (Some s, 1%Z, amd)
          | OMul =>
              do a <- vget (e_values e) 0;
              if is_numlike a then do b <- vget (e_values e) 1; im_pols fuel' tbl abs b (Some s) m amd
              else
                do b <- vget (e_values e) 1;
                if is_numlike b then im_pols fuel' tbl abs a (Some s) m amd
                else
                  do here <- exp_deg fuel' tbl e;
                  if (here <=? Z.of_nat m)%Z then Ok (Some s, here, amd)
                  else im_split (im_pols fuel' tbl abs a) (im_pols fuel' tbl abs b) s m (seq 0 (m + 1)) None (-1)%Z amd
          | OExp =>
              if m <? 1 then Ok (None, (-1)%Z, amd)
              else
                do i <- unwrap (e_id e);
                if im_mem i s then Ok (Some s, 1%Z, amd)
                else
                  do x <- vget tbl i;
                  do r <- im_pols fuel' tbl abs x (Some s) abs amd;
                  let '(s1, d, amd1) := r in
                  match s1 with
                  | None => Ok (None, (-1)%Z, amd1)
                  | Some s2 =>
                      if (Z.of_nat m <? d)%Z then Ok (Some (im_insert i s2), 1%Z, if (amd1 <? d)%Z then d else amd1)
                      else Ok (Some s2, d, amd1)
                  end
          | _ => Panic
          end
      end
  end.
(* lines 269-288 calculate_im_pols *)
Definition calculate_im_pols (fuel : nat) (tbl : list expr) (e : expr) (max_deg : nat) : res (option (list nat) * Z) :=
  do r <- im_pols fuel tbl max_deg e (Some []) max_deg 0%Z;
  let '(re, rd, amd) := r in Ok (re, (Z.max rd amd - 1)%Z).

(* lines 37-49: the degrees 2..=max_deg are tried; q_deg starts as 0. The casts of q_deg to usize are on
   non-negative values when a set is returned for a constraint that is not constant; -1 as usize is not
   modelled and becomes a panic. *)
Definition try_deg (fuel : nat) (tbl : list expr) (c : expr) (st : list nat * Z) (d : nat) : res (list nat * Z) :=
  do r <- calculate_im_pols fuel tbl c d;
  match fst r with
  | None => Ok st
  | Some s =>
      if (snd r <? 0)%Z then Panic
      else if (snd st =? 0)%Z || (Z.of_nat (length s) + snd r <? Z.of_nat (length (fst st)) + snd st)%Z then Ok (s, snd r) else Ok st
  end.
Definition choose_im (fuel : nat) (tbl : list expr) (c : expr) (max_deg : nat) : res (list nat * Z) :=
  foldM (try_deg fuel tbl c) (seq 2 (max_deg - 1)) ([], 0%Z).
