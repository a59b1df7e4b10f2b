(* Model of the verifier's constraint check: starky/src/starkinfo_cp_ver.rs and the part of
   starky/src/stark_verify.rs that evaluates the constraint and the quotient at the challenge point. *)
From Verif Require Import Base GlModel FrField F3gModel PolyModel CodegenModel InterpModel.
Open Scope nat_scope.
Open Scope res_scope.

(* starkinfo_codegen.rs:237-290 EVIdx together with ev_map. A key is (type is "cm", shifted, id); both hash
   maps are one association list, the latest insertion first. *)
Definition evkey := (bool * bool * nat)%type.
Record evst : Type := mkEV { ev_idx : list (evkey * nat); ev_map : list evkey }.
Definition evkey_eqb (a b : evkey) : bool :=
  Bool.eqb (fst (fst a)) (fst (fst b)) && Bool.eqb (snd (fst a)) (snd (fst b)) && (snd a =? snd b).
Fixpoint assoc {K V} (eqb : K -> K -> bool) (l : list (K * V)) (k : K) : option V :=
  match l with [] => None | (a, v) :: r => if eqb a k then Some v else assoc eqb r k end.
Definition ev_get (e : evst) (k : evkey) : option nat := assoc evkey_eqb (ev_idx e) k.
Definition ev_push (e : evst) (k : evkey) : evst := mkEV ((k, length (ev_map e)) :: ev_idx e) (ev_map e ++ [k]).
(* starkinfo_cp_ver.rs:45-61, 75-90: the index of an evaluation, added if new *)
Definition ev_ref (e : evst) (k : evkey) : nat * evst :=
  match ev_get e k with Some i => (i, e) | None => (length (ev_map e), ev_push e k) end.

(* ContextF: exp_map and tmp_used *)
Record fstate : Type := mkF { f_exp : list ((bool * nat) * nat); f_tmp : nat; f_ev : evst }.
Definition pkey_eqb (a b : bool * nat) : bool := Bool.eqb (fst a) (fst b) && (snd a =? snd b).
Definition exp_tmp (f : fstate) (k : bool * nat) : nat * fstate :=
  match assoc pkey_eqb (f_exp f) k with
  | Some t => (t, f)
  | None => (f_tmp f, mkF ((k, f_tmp f) :: f_exp f) (f_tmp f + 1) (f_ev f))
  end.

(* starkinfo_cp_ver.rs:31-96 fix_ref. [im] lists im_exps_list with its im_exp2cm entry. *)
Definition to_eval (f : fstate) (r : node) (k : evkey) : node * fstate :=
  let '(i, e) := ev_ref (f_ev f) k in
  (mkN Neval i (n_value r) (n_dim r) false (n_pos r), mkF (f_exp f) (f_tmp f) e).
Definition fix_ref (im : list (nat * nat)) (f : fstate) (r : node) : res (node * fstate) :=
  match n_ty r with
  | Nexp =>
      match assoc Nat.eqb im (n_id r) with
      | Some c => Ok (to_eval f r (true, n_prime r, c))
      | None =>
          let '(t, f') := exp_tmp f (n_prime r, n_id r) in
          Ok (mkN Ntmp t (n_value r) (n_dim r) (n_prime r) (n_pos r), f')
      end
  | Ncm => Ok (to_eval f r (true, n_prime r, n_id r))
  | Nconst => Ok (to_eval f r (false, n_prime r, n_id r))
  | Nnumber | Nchallenge | Npublic | Ntmp | NZ | Nx | Neval => Ok (r, f)
  | _ => Panic
  end.
(* starkinfo_codegen.rs:651-668 iterate_code, on one segment *)
Fixpoint fix_refs (im : list (nat * nat)) (f : fstate) (l : list node) : res (list node * fstate) :=
  match l with
  | [] => Ok ([], f)
  | r :: l' => do a <- fix_ref im f r; do b <- fix_refs im (snd a) l'; Ok (fst a :: fst b, snd b)
  end.
Fixpoint fix_code (im : list (nat * nat)) (f : fstate) (l : list instr) : res (list instr * fstate) :=
  match l with
  | [] => Ok ([], f)
  | c :: l' =>
      do s <- fix_refs im f (i_src c);
      do d <- fix_ref im (snd s) (i_dest c);
      do b <- fix_code im (snd d) l';
      Ok (mkI (i_op c) (fst d) (fst s) :: fst b, snd b)
  end.

(* starkinfo_cp_ver.rs:9-118 generate_constraint_polynomial_verifier, with the context set up in
   starkinfo.rs:250-254. The segments "i" and "last" are not run; qs are the ids of the quotient
   columns. Returned: the code and the evaluation index. *)
Definition im_keys (im : list (nat * nat)) : list (bool * nat) := flat_map (fun p => [(false, fst p); (true, fst p)]) im.
Definition verifier_code (fuel : nat) (exps : list expr) (im : list (nat * nat)) (c_exp : nat) (qs : list nat) : res (list instr * evst) :=
  do c <- pil_code_gen fuel exps None true (mkCtx 0 [] (im_keys im)) c_exp false;
  do r <- fix_code im (mkF [] (x_tmp c) (mkEV [] [])) (linear_code c);
  Ok (fst r, fold_left (fun e q => ev_push e (true, false, q)) qs (f_ev (snd r))).

(* stark_verify.rs:58-77: the constraint at xi against the quotient times the vanishing polynomial.
   x_n = xi^N. *)
Fixpoint q_sum (evals : list F3G) (e : evst) (qs : list nat) (x_n x_acc q : F3G) : res F3G :=
  match qs with
  | [] => Ok q
  | c :: r =>
      do i <- unwrap (ev_get e (true, false, c));
      do v <- vget evals i;
      q_sum evals e r x_n (e_mul x_acc x_n) (e_add q (e_mul x_acc v))
  end.
Definition check_constraint (x : vctx) (code : list instr) (e : evst) (qs : list nat) (nbits : nat) : res bool :=
  do xi <- vget (v_challenge x) 7;
  let x_n := e_exp xi (2 ^ Z.of_nat nbits) in
  do r <- execute_code (mkV (v_tree1 x) (v_tree2 x) (v_tree3 x) (v_tree4 x) (v_consts x) (v_evals x) (v_publics x)
            (v_challenge x) (v_xdiv x) (v_xdivw x) (e_sub x_n e_ONE) (v_Zp x)) code;
  do q <- q_sum (v_evals x) e qs x_n e_ONE e_ZERO;
  Ok (e__eq r (e_mul q (e_sub x_n e_ONE))).
