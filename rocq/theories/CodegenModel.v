(* Model of starky/src/starkinfo_codegen.rs: generation of straight-line code from expressions.
   Operator and reference names are enumerations instead of strings; OOther stands for any name the
   code does not know. Numbers are kept as the integer their decimal text denotes. *)
From Verif Require Import Base.
Open Scope nat_scope.
Open Scope res_scope.

Inductive eop : Type :=
| OAdd | OSub | OMul | OMuladd | OAddc | OMulc | ONeg
| OCm | OConst | OExp | OQ | ONumber | OPublic | OChallenge | OEval
| OXDivXSubXi | OXDivXSubWXi | OX | ONop | OOther.

(* types.rs:36-55 Expression. [next] is the method of lines 64-68; a missing vector of values is the
   empty one (they differ only on operators without operands, which PIL files do not contain);
   [keep] tells whether keep or idQ is present; deg and keep2ns are not used by the modelled code. *)
Inductive expr : Type :=
  mkE (op : eop) (id : option nat) (next : bool) (value : option Z) (values : list expr)
      (const_ : option Z) (keep : bool).
Definition e_op (e : expr) : eop := let 'mkE o _ _ _ _ _ _ := e in o.
Definition e_id (e : expr) : option nat := let 'mkE _ i _ _ _ _ _ := e in i.
Definition e_next (e : expr) : bool := let 'mkE _ _ n _ _ _ _ := e in n.
Definition e_value (e : expr) : option Z := let 'mkE _ _ _ v _ _ _ := e in v.
Definition e_values (e : expr) : list expr := let 'mkE _ _ _ _ v _ _ := e in v.
Definition e_const (e : expr) : option Z := let 'mkE _ _ _ _ _ c _ := e in c.
Definition e_keep (e : expr) : bool := let 'mkE _ _ _ _ _ _ k := e in k.

(* types.rs:77-96 Expression::new *)
Definition E_new (op : eop) (id : option nat) (value : option Z) (values : list expr) : expr :=
  mkE op id false value values None false.
(* expressionops.rs:8-88 *)
Definition E_add (a b : expr) := E_new OAdd None None [a; b].
Definition E_sub (a b : expr) := E_new OSub None None [a; b].
Definition E_mul (a b : expr) := E_new OMul None None [a; b].
Definition E_neg (a : expr) := E_new ONeg None None [a].
Definition E_exp (id : nat) (next : bool) := mkE OExp (Some id) next None [] None false.
Definition E_cm (id : nat) (next : bool) := mkE OCm (Some id) next None [] None false.
Definition E_const (id : nat) (next : bool) := mkE OConst (Some id) next None [] None false.
Definition E_challenge (id : nat) := E_new OChallenge (Some id) None [].
Definition E_number (n : Z) := E_new ONumber None (Some n) [].
Definition E_eval (n : nat) := E_new OEval (Some n) None [].
Definition E_xDivXSubXi := E_new OXDivXSubXi None None [].
Definition E_xDivXSubWXi := E_new OXDivXSubWXi None None [].
Definition E_x := E_new OX None None [].
Definition E_nop := E_new ONop None None [].
Definition is_nop (e : expr) : bool := match e_op e with ONop => true | _ => false end.

(* the values of Node::type_ *)
Inductive ntype : Type :=
| Ntmp | Nexp | Ncm | Nconst | Nq | Nnumber | Npublic | Nchallenge | Neval
| NxDivXSubXi | NxDivXSubWXi | Nx | NZi | NZ | Nf | NtmpExp | Ntree1 | Ntree2 | Ntree3 | Ntree4.

Definition ntype_eqb (a b : ntype) : bool :=
  match a, b with
  | Ntmp, Ntmp | Nexp, Nexp | Ncm, Ncm | Nconst, Nconst | Nq, Nq | Nnumber, Nnumber | Npublic, Npublic
  | Nchallenge, Nchallenge | Neval, Neval | NxDivXSubXi, NxDivXSubXi | NxDivXSubWXi, NxDivXSubWXi
  | Nx, Nx | NZi, NZi | NZ, NZ | Nf, Nf | NtmpExp, NtmpExp
  | Ntree1, Ntree1 | Ntree2, Ntree2 | Ntree3, Ntree3 | Ntree4, Ntree4 => true
  | _, _ => false
  end.

(* starkinfo_codegen.rs:47-57 Node; the fields p and exp_id are only written, never read, and left out *)
Record node : Type := mkN { n_ty : ntype; n_id : nat; n_value : option Z; n_dim : nat; n_prime : bool; n_pos : nat }.
(* starkinfo_codegen.rs:60-70 Node::new with dim 0 and tree_pos 0, as in all calls below *)
Definition N_new (ty : ntype) (id : nat) (value : option Z) (prime : bool) : node := mkN ty id value 0 prime 0.

(* the operations of generated code *)
Inductive cop : Type := CAdd | CSub | CMul | CMuladd | CCopy.
(* starkinfo_codegen.rs:74-78 Section *)
Record instr : Type := mkI { i_op : cop; i_dest : node; i_src : list node }.
(* starkinfo_codegen.rs:40-46 Code; tmp_used and idQ are constants there *)
Record code : Type := mkC { cd_exp : nat; cd_prime : bool; cd_code : list instr }.
(* starkinfo_codegen.rs:16-21 Context. Only membership in [calculated] is ever tested, so it is a list
   of keys; the first component of a key is true for "expsPrime". *)
Record context : Type := mkCtx { x_tmp : nat; x_code : list code; x_calc : list (bool * nat) }.

(* ---- lines 391-421: traversal of a tree of expressions with explicit stacks ---- *)
Fixpoint e_size (e : expr) : nat :=
  let 'mkE _ _ _ _ vs _ _ := e in S ((fix go l := match l with [] => 0 | x :: r => e_size x + go r end) vs).

(* lines 400-406. Vectors used as stacks have their top at the head of the list. *)
Fixpoint prefix_loop (fuel : nat) (seen : list expr) (prefix : list (expr * nat)) : res (list (expr * nat)) :=
  match seen with
  | [] => Ok prefix
  | node :: rest =>
      match fuel with
      | O => Hang
      | S fuel' => prefix_loop fuel' (rev (e_values node) ++ rest) ((node, length (e_values node)) :: prefix)
      end
  end.

Section Traversal.
  Variables (S R : Type) (process : S -> expr -> list R -> res (R * S)).
  (* lines 411-417: process_node is a closure over mutable state, here passed along *)
  Fixpoint result_loop (prefix : list (expr * nat)) (results : list R) (s : S) : res (list R * S) :=
    match prefix with
    | [] => Ok (results, s)
    | (node, n) :: prefix' =>
        if length results <? n then Panic else
        do rs <- process s node (rev (firstn n results));
        result_loop prefix' (fst rs :: skipn n results) (snd rs)
    end.
  (* lines 391-421 iterative_postorder_traversal *)
  Definition postorder_traversal (root : expr) (s : S) : res (R * S) :=
    do p <- prefix_loop (e_size root) [root] [];
    do rs <- result_loop p [] s;
    match fst rs with [r] => Ok (r, snd rs) | _ => Panic end.
End Traversal.
Arguments result_loop {S R}. Arguments postorder_traversal {S R}.

(* lines 24-28 ContextC without exp_id (used in error messages only) *)
Record ccontext : Type := mkCC { cc_tmp : nat; cc_code : list instr }.

Definition emit (c : ccontext) (op : cop) (src : list node) : node * ccontext :=
  let r := N_new Ntmp (cc_tmp c) None false in
  (r, mkCC (cc_tmp c + 1) (cc_code c ++ [mkI op r src])).
Definition unwrap {A} (o : option A) : res A := match o with Some a => Ok a | None => Panic end.
Definition shifted_ref (c : ccontext) (e : expr) (prime : bool) (ty : ntype) : res (node * ccontext) :=
  if e_next e && prime then Err else
  do id <- unwrap (e_id e); Ok (N_new ty id None (e_next e || prime), c).
Definition plain_ref (c : ccontext) (e : expr) (ty : ntype) : res (node * ccontext) :=
  do id <- unwrap (e_id e); Ok (N_new ty id None false, c).

(* lines 442-555 eval_single_op *)
Definition eval_single_op (prime : bool) (c : ccontext) (e : expr) (values : list node) : res (node * ccontext) :=
  match e_op e with
  | OAdd => Ok (emit c CAdd values)
  | OSub => Ok (emit c CSub values)
  | OMul => Ok (emit c CMul values)
  | OMuladd => Ok (emit c CMuladd values)
  | OAddc =>
      do a <- unwrap (hd_error values); do k <- unwrap (e_const e);
      Ok (emit c CAdd [a; N_new Nnumber 0 (Some k) false])
  | OMulc =>
      do a <- unwrap (hd_error values); do k <- unwrap (e_const e);
      Ok (emit c CMul [a; N_new Nnumber 0 (Some k) false])
  | ONeg =>
      do b <- unwrap (hd_error values);
      Ok (emit c CSub [N_new Nnumber 0 (Some 0%Z) false; b])
  | OCm => shifted_ref c e prime Ncm
  | OConst => shifted_ref c e prime Nconst
  | OExp => shifted_ref c e prime Nexp
  | OQ => shifted_ref c e prime Nq
  | ONumber => Ok (N_new Nnumber 0 (e_value e) false, c)
  | OPublic => plain_ref c e Npublic
  | OChallenge => plain_ref c e Nchallenge
  | OEval => plain_ref c e Neval
  | OXDivXSubXi => Ok (N_new NxDivXSubXi 0 None false, c)
  | OXDivXSubWXi => Ok (N_new NxDivXSubWXi 0 None false, c)
  | OX => Ok (N_new Nx 0 None false, c)
  | ONop | OOther => Err
  end.

(* lines 423-440 eval_exp *)
Definition eval_exp (c : ccontext) (e : expr) (prime : bool) : res (node * ccontext) :=
  if is_nop e then Panic else postorder_traversal (eval_single_op prime) e c.

Definition is_mul (o : eop) : bool := match o with OMul => true | _ => false end.
Definition is_add (o : eop) : bool := match o with OAdd => true | _ => false end.
(* lines 358-384 find_muladd. values[0] or values[1] beyond the end panics. *)
Fixpoint find_muladd (e : expr) : res expr :=
  let 'mkE op id next value values const_ keep := e in
  let kids := (fix go l := match l with [] => Ok [] | x :: r => do y <- find_muladd x; do ys <- go r; Ok (y :: ys) end) values in
  match values with
  | [] => Ok e
  | v0 :: rest =>
      let 'mkE o0 _ _ _ ms0 _ _ := v0 in
      if is_add op then
        match rest with
        | [] => Panic
        | v1 :: _ =>
            let 'mkE o1 _ _ _ ms1 _ _ := v1 in
            if is_mul o0 then
              match ms0 with
              | m0 :: m1 :: _ =>
                  do a <- find_muladd m0; do b <- find_muladd m1; do c <- find_muladd v1;
                  Ok (E_new OMuladd None None [a; b; c])
              | _ => Panic
              end
            else if is_mul o1 then
              match ms1 with
              | m0 :: m1 :: _ =>
                  do a <- find_muladd m0; do b <- find_muladd m1; do c <- find_muladd v0;
                  Ok (E_new OMuladd None None [a; b; c])
              | _ => Panic
              end
            else do ks <- kids; Ok (mkE op id next value ks const_ keep)
        end
      else do ks <- kids; Ok (mkE op id next value ks const_ keep)
  end.

Definition key_in (k : bool * nat) (l : list (bool * nat)) : bool :=
  existsb (fun q => Bool.eqb (fst q) (fst k) && (snd q =? snd k)) l.

(* lines 557-579 calculate_deps; [gen] is pil_code_gen, called with the result arguments "" and 0 *)
Fixpoint calculate_deps (gen : context -> nat -> bool -> res context) (prime : bool) (e : expr) (c : context) : res context :=
  let 'mkE op id next _ values _ _ := e in
  do c1 <-
    match op with
    | OExp =>
        do i <- unwrap id;
        if prime && next then Err else gen c i (prime || next)
    | _ => Ok c
    end;
  (fix go l c := match l with [] => Ok c | x :: r => do c' <- calculate_deps gen prime x c; go r c' end) values c1.

Definition set_last_dest (l : list instr) (d : node) : res (list instr) :=
  match rev l with
  | [] => Panic
  | i :: r => Ok (rev (mkI (i_op i) d (i_src i) :: r))
  end.
Fixpoint find_code (l : list code) (exp_id : nat) (prime : bool) (i : nat) : res nat :=
  match l with
  | [] => Panic
  | c :: r => if (cd_exp c =? exp_id) && Bool.eqb (cd_prime c) prime then Ok i else find_code r exp_id prime (i + 1)
  end.

(* lines 296-356 pil_code_gen. The dependencies are generated with muladd = false (line 322). Fuel
   bounds the chain of expression references; in the program a cyclic table overflows the stack. *)
Fixpoint pil_code_gen (fuel : nat) (exps : list expr) (res_ : option (ntype * nat)) (muladd : bool)
    (c : context) (exp_id : nat) (prime : bool) : res context :=
  match fuel with
  | O => Hang
  | S fuel' =>
      if key_in (prime, exp_id) (x_calc c) then
        match res_ with
        | None => Ok c
        | Some (ty, rid) =>
            do idx <- find_code (x_code c) exp_id prime 0;
            do cd <- vget (x_code c) idx;
            match rev (cd_code cd) with
            | [] => Panic
            | l :: _ =>
                do codes <- vset (x_code c) idx
                  (mkC (cd_exp cd) (cd_prime cd) (cd_code cd ++ [mkI CCopy (N_new ty rid None prime) [i_dest l]]));
                Ok (mkCtx (x_tmp c) codes (x_calc c))
            end
        end
      else
        do e <- vget exps exp_id;
        do c1 <- calculate_deps (pil_code_gen fuel' exps None false) prime e c;
        do e' <- (if muladd then find_muladd e else Ok e);
        do rc <- eval_exp (mkCC (x_tmp c1) []) e' prime;
        let '(ret, cc) := rc in
        let exp_node := N_new Nexp exp_id None prime in
        do body <-
          match n_ty ret with
          | Ntmp => do l <- set_last_dest (cc_code cc) exp_node; Ok (l, cc_tmp cc - 1)
          | _ => Ok (cc_code cc ++ [mkI CCopy exp_node [ret]], cc_tmp cc)
          end;
        let '(l, t) := body in
        do l' <-
          match res_ with
          | None => Ok l
          | Some (ty, rid) => if prime then Panic else Ok (l ++ [mkI CCopy (N_new ty rid None prime) [exp_node]])
          end;
        Ok (mkCtx (Nat.max (x_tmp c1) t) (x_code c1 ++ [mkC exp_id prime l']) ((prime, exp_id) :: x_calc c1))
  end.

(* lines 605-625 build_linear_code for "first"; the other two segments are generated but never run
   (stark_gen.rs:566, 761, stark_verify.rs:68, 130) *)
Definition linear_code (c : context) : list instr := concat (map cd_code (x_code c)).

(* lines 586-603 build_code: every expression without keep and idQ becomes a key of [calculated] *)
Definition build_code (exps : list expr) (c : context) : list instr * nat * context :=
  let keys := concat (map (fun ie => if e_keep (snd ie) then [] else [(false, fst ie); (true, fst ie)])
                          (combine (seq 0 (length exps)) exps)) in
  (linear_code c, x_tmp c, mkCtx (x_tmp c) [] (keys ++ x_calc c)).
