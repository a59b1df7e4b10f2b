(* Model of the column layout: IndexVec and Index of starky/src/starkinfo_codegen.rs and map_section, the
   offsets, the dimensions of starky/src/starkinfo_map.rs. *)
From Coq Require Import String.
From Verif Require Import Base GlModel FrField F3gModel CodegenModel InterpModel.
Open Scope nat_scope.
Open Scope res_scope.

(* starkinfo_codegen.rs:112-125, 146-159: one record type for both, the fields in the same order *)
Record index (A : Type) : Type := mkIx {
  ix_cm1_n : A; ix_cm1_2ns : A; ix_cm2_n : A; ix_cm2_2ns : A; ix_cm3_n : A; ix_cm3_2ns : A; ix_cm4_n : A; ix_cm4_2ns : A;
  ix_tmpexp_n : A; ix_q_2ns : A; ix_f_2ns : A }.
Arguments mkIx {A}. Arguments ix_cm1_n {A}. Arguments ix_cm1_2ns {A}. Arguments ix_cm2_n {A}. Arguments ix_cm2_2ns {A}.
Arguments ix_cm3_n {A}. Arguments ix_cm3_2ns {A}. Arguments ix_cm4_n {A}. Arguments ix_cm4_2ns {A}.
Arguments ix_tmpexp_n {A}. Arguments ix_q_2ns {A}. Arguments ix_f_2ns {A}.

(* lines 128-143 IndexVec::get; "f_2ns" returns q_2ns *)
Definition indexvec_get (x : index (list nat)) (name : string) : res (list nat) :=
  if String.eqb name "cm1_n" then Ok (ix_cm1_n x)
  else if String.eqb name "cm1_2ns" then Ok (ix_cm1_2ns x)
  else if String.eqb name "cm2_n" then Ok (ix_cm2_n x)
  else if String.eqb name "cm2_2ns" then Ok (ix_cm2_2ns x)
  else if String.eqb name "cm3_n" then Ok (ix_cm3_n x)
  else if String.eqb name "cm3_2ns" then Ok (ix_cm3_2ns x)
  else if String.eqb name "cm4_n" then Ok (ix_cm4_n x)
  else if String.eqb name "cm4_2ns" then Ok (ix_cm4_2ns x)
  else if String.eqb name "tmpexp_n" then Ok (ix_tmpexp_n x)
  else if String.eqb name "q_2ns" then Ok (ix_q_2ns x)
  else if String.eqb name "f_2ns" then Ok (ix_q_2ns x)
  else Panic.

(* lines 162-177 Index::get; None stands for usize::MAX *)
Definition index_get (x : index nat) (name : string) : option nat :=
  if String.eqb name "cm1_n" then Some (ix_cm1_n x)
  else if String.eqb name "cm1_2ns" then Some (ix_cm1_2ns x)
  else if String.eqb name "cm2_n" then Some (ix_cm2_n x)
  else if String.eqb name "cm2_2ns" then Some (ix_cm2_2ns x)
  else if String.eqb name "cm3_n" then Some (ix_cm3_n x)
  else if String.eqb name "cm3_2ns" then Some (ix_cm3_2ns x)
  else if String.eqb name "cm4_n" then Some (ix_cm4_n x)
  else if String.eqb name "cm4_2ns" then Some (ix_cm4_2ns x)
  else if String.eqb name "tmpexp_n" then Some (ix_tmpexp_n x)
  else if String.eqb name "q_2ns" then Some (ix_q_2ns x)
  else if String.eqb name "f_2ns" then Some (ix_f_2ns x)
  else None.
(* lines 179-217 Index::set *)
Definition index_set (x : index nat) (name : string) (v : nat) : res (index nat) :=
  let 'mkIx a b c d e f g h t q r := x in
  if String.eqb name "cm1_n" then Ok (mkIx v b c d e f g h t q r)
  else if String.eqb name "cm1_2ns" then Ok (mkIx a v c d e f g h t q r)
  else if String.eqb name "cm2_n" then Ok (mkIx a b v d e f g h t q r)
  else if String.eqb name "cm2_2ns" then Ok (mkIx a b c v e f g h t q r)
  else if String.eqb name "cm3_n" then Ok (mkIx a b c d v f g h t q r)
  else if String.eqb name "cm3_2ns" then Ok (mkIx a b c d e v g h t q r)
  else if String.eqb name "cm4_n" then Ok (mkIx a b c d e f v h t q r)
  else if String.eqb name "cm4_2ns" then Ok (mkIx a b c d e f g v t q r)
  else if String.eqb name "q_2ns" then Ok (mkIx a b c d e f g h t v r)
  else if String.eqb name "f_2ns" then Ok (mkIx a b c d e f g h t q v)
  else if String.eqb name "tmpexp_n" then Ok (mkIx a b c d e f g h v q r)
  else Panic.
Definition index_default : index nat := mkIx 0 0 0 0 0 0 0 0 0 0 0.

(* starkinfo_codegen.rs:220-225 PolType without exp_id *)
Record pol : Type := mkPT { pt_sec : string; pt_pos : nat; pt_dim : nat }.

(* starkinfo_map.rs:491-494 *)
Definition names : list string :=
  ["cm1_n"; "cm1_2ns"; "cm2_n"; "cm2_2ns"; "cm3_n"; "cm3_2ns"; "cm4_n"; "cm4_2ns"; "q_2ns"; "f_2ns"; "tmpexp_n"]%string.
(* lines 499-504: one pass over var_pol_map *)
Fixpoint assign (s : string) (e p : nat) (l : list pol) : nat * list pol :=
  match l with
  | [] => (p, [])
  | x :: r =>
      if String.eqb (pt_sec x) s && (pt_dim x =? e) then
        let '(q, r') := assign s e (p + e) r in (q, mkPT (pt_sec x) p (pt_dim x) :: r')
      else let '(q, r') := assign s e p r in (q, x :: r')
  end.
(* map_sectionsN1, map_sectionsN, map_sectionsN3 *)
Record widths : Type := mkW { w_n1 : index nat; w_n : index nat; w_n3 : index nat }.
(* lines 496-515 for one name. The subtraction N - N1 does not underflow. *)
Definition map_name (st : list pol * widths) (s : string) : res (list pol * widths) :=
  let '(l, w) := st in
  let '(p1, l1) := assign s 1 0 l in
  let '(p2, l2) := assign s 2 p1 l1 in
  let '(p3, l3) := assign s 3 p2 l2 in
  do n1 <- index_set (w_n1 w) s p1;
  do n <- index_set (w_n w) s p3;
  do a <- unwrap (index_get n s);
  do b <- unwrap (index_get n1 s);
  do n3 <- index_set (w_n3 w) s ((a - b) / 3);
  Ok (l3, mkW n1 n n3).
(* lines 490-517 map_section *)
Definition map_section (l : list pol) : res (list pol * widths) :=
  foldM map_name names (l, mkW index_default index_default index_default).

(* lines 226-254: map_offsets, map_total_n, map_deg *)
Definition map_offsets (nbits nbits_ext : nat) (n : index nat) : index nat * nat * index nat :=
  let N := 2 ^ nbits in
  let Next := 2 ^ nbits_ext in
  let cm1_n := 0 in
  let cm2_n := cm1_n + N * ix_cm1_n n in
  let cm3_n := cm2_n + N * ix_cm2_n n in
  let cm4_n := cm3_n + N * ix_cm3_n n in
  let tmpexp_n := cm4_n + N * ix_cm4_n n in
  let cm1_2ns := tmpexp_n + N * ix_tmpexp_n n in
  let cm2_2ns := cm1_2ns + Next * ix_cm1_2ns n in
  let cm3_2ns := cm2_2ns + Next * ix_cm2_2ns n in
  let cm4_2ns := cm3_2ns + Next * ix_cm3_2ns n in
  let q_2ns := cm4_2ns + Next * ix_cm4_2ns n in
  let f_2ns := q_2ns + Next * ix_q_2ns n in
  let total := f_2ns + Next * ix_f_2ns n in
  (mkIx cm1_n cm1_2ns cm2_n cm2_2ns cm3_n cm3_2ns cm4_n cm4_2ns tmpexp_n q_2ns f_2ns, total,
   mkIx N Next N Next N Next N Next N Next Next).

(* lines 519-541 get_exp_dim. Fuel bounds the chain of references through the table. *)
Fixpoint get_exp_dim (fuel : nat) (tbl : list expr) (cm_dims q2exp : list nat) (e : expr) : res nat :=
  match fuel with
  | O => Hang
  | S fuel' =>
      match e_op e with
      | OAdd | OSub | OMul | OMuladd | OAddc | OMulc | ONeg =>
          (fix go (l : list expr) (md : nat) : res nat :=
             match l with [] => Ok md | x :: r => do d <- get_exp_dim fuel' tbl cm_dims q2exp x; go r (if md <? d then d else md) end)
            (e_values e) 1
      | OCm => do i <- unwrap (e_id e); vget cm_dims i
      | OConst => Ok 1
      | OExp => do i <- unwrap (e_id e); do x <- vget tbl i; get_exp_dim fuel' tbl cm_dims q2exp x
      | OQ => do i <- unwrap (e_id e); do j <- vget q2exp i; do x <- vget tbl j; get_exp_dim fuel' tbl cm_dims q2exp x
      | ONumber | OPublic => Ok 1
      | OChallenge | OEval | OXDivXSubXi | OXDivXSubWXi => Ok 3
      | OX => Ok 1
      | ONop | OOther => Panic
      end
  end.

(* lines 25-192: the part of map that fills cm_dims and, in the same order, the dimensions of the pushed
   columns (the entries of var_pol_map that cm_n and cm_2ns point to). [pus] lists f_exp_id and t_exp_id,
   [nz] is the number of grand product columns. *)
Definition set_dim_at (l : list nat) (i d : nat) : res (list nat) := vset l i d.
Definition map_dims (fuel : nat) (tbl : list expr) (q2exp : list nat) (n_cm1 : nat) (pus : list (nat * nat)) (nz : nat)
    (im_list : list nat) (c_exp q_deg : nat) : res (list nat * list nat) :=
  let n_cm2 := 2 * length pus in
  let n_cm3 := nz + length im_list in
  let dim_of dims i := do e <- vget tbl i; get_exp_dim fuel tbl dims q2exp e in
  let dims0 := repeat 0 (n_cm1 + n_cm2 + n_cm3 + q_deg) in
  do s1 <- foldM (fun st i => do d <- set_dim_at (fst st) i 1; Ok (d, snd st ++ [1])) (seq 0 n_cm1) (dims0, []);
  do s2 <- foldM (fun st (ip : nat * (nat * nat)) =>
             do df <- dim_of (fst st) (fst (snd ip)); do dt <- dim_of (fst st) (snd (snd ip));
             let dim := Nat.max df dt in
             do d <- set_dim_at (fst st) (n_cm1 + fst ip * 2) dim;
             do d' <- set_dim_at d (n_cm1 + fst ip * 2 + 1) dim;
             Ok (d', snd st ++ [dim; dim])) (combine (seq 0 (length pus)) pus) s1;
  do s3 <- foldM (fun st i => do d <- set_dim_at (fst st) (n_cm1 + n_cm2 + i) 3; Ok (d, snd st ++ [3])) (seq 0 nz) s2;
  do s4 <- foldM (fun st (ie : nat * nat) =>
             do dim <- dim_of (fst st) (snd ie);
             do d <- set_dim_at (fst st) (n_cm1 + n_cm2 + fst ie) dim; (* line 172 *)
             Ok (d, snd st ++ [dim])) (combine (seq 0 (length im_list)) im_list) s3;
  do q_dim <- dim_of (fst s4) c_exp;
  foldM (fun st i => do d <- set_dim_at (fst st) (n_cm1 + n_cm2 + n_cm3 + i) q_dim; Ok (d, snd st ++ [q_dim])) (seq 0 q_deg) s4.

(* lines 321-364 get_dim. [cm_dim] gives the dimension of var_pol_map[cm_2ns[id]] and [q_dim] that of
   var_pol_map[qs[id]]; r.dim is used for the tree references and tmpExp. *)
Definition get_dim (cm_dim q_dim : nat -> res nat) (dim_x : nat) (tmp_dim : nat -> option nat) (r : node) : res nat :=
  do d <- match n_ty r with
          | Ntmp => unwrap (tmp_dim (n_id r))
          | Ntree1 | Ntree2 | Ntree3 | Ntree4 | NtmpExp => Ok (n_dim r)
          | Ncm => cm_dim (n_id r)
          | Nq => q_dim (n_id r)
          | Nconst | Nnumber | Npublic | NZi => Ok 1
          | Neval | Nchallenge | NZ => Ok 3
          | NxDivXSubXi | NxDivXSubWXi | Nx => Ok dim_x
          | _ => Panic
          end;
  if d =? 0 then Panic else Ok d.
(* lines 366-410 _set_code_dimensions and set_dim (306-319): the dimension given to every destination, in
   order *)
Fixpoint code_dims (cm_dim q_dim : nat -> res nat) (dim_x : nat) (tmp_dim : nat -> option nat) (l : list instr) : res (list nat) :=
  match l with
  | [] => Ok []
  | c :: r =>
      let g := get_dim cm_dim q_dim dim_x tmp_dim in
      do d <- match i_op c, i_src c with
              | CMuladd, x :: y :: z :: _ => do a <- g x; do b <- g y; do e <- g z; Ok (Nat.max (Nat.max a b) e)
              | CCopy, x :: _ => g x
              | (CAdd | CSub | CMul), x :: y :: _ => do a <- g x; do b <- g y; Ok (Nat.max a b)
              | _, _ => Panic
              end;
      do t <- match n_ty (i_dest c) with
              | Ntmp => Ok (fun k => if k =? n_id (i_dest c) then Some d else tmp_dim k)
              | Nexp | Ncm | Nq | NtmpExp | Nf => Ok tmp_dim
              | _ => Panic
              end;
      do ds <- code_dims cm_dim q_dim dim_x t r;
      Ok (d :: ds)
  end.
