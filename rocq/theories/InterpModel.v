(* Model of starky/src/interpreter.rs (compilation of generated code to blocks and their evaluation on
   the prover's memory) and of execute_code in starky/src/stark_verify.rs. Elements are those of
   f3g.rs, so the dimension 5 branch of get_value does not occur. Section and reference names are
   enumerations instead of strings. *)
From Verif Require Import Base GlModel FrField F3gModel CodegenModel.
Open Scope nat_scope.
Open Scope res_scope.

(* stark_gen.rs:147-174 StarkContext::get_mut: the named vectors *)
Inductive sec : Type :=
| Stmp | Scm1_n | Scm2_n | Scm3_n | Scm4_n | Stmpexp_n | Scm1_2ns | Scm2_2ns | Scm3_2ns | Scm4_2ns
| Sq_2ns | Sf_2ns | Sconst_n | Sconst_2ns | Spublics | Schallenge | Sevals | Sx_n | Sx_2ns.
Definition sec_eqb (a b : sec) : bool :=
  match a, b with
  | Stmp, Stmp | Scm1_n, Scm1_n | Scm2_n, Scm2_n | Scm3_n, Scm3_n | Scm4_n, Scm4_n | Stmpexp_n, Stmpexp_n
  | Scm1_2ns, Scm1_2ns | Scm2_2ns, Scm2_2ns | Scm3_2ns, Scm3_2ns | Scm4_2ns, Scm4_2ns | Sq_2ns, Sq_2ns
  | Sf_2ns, Sf_2ns | Sconst_n, Sconst_n | Sconst_2ns, Sconst_2ns | Spublics, Spublics
  | Schallenge, Schallenge | Sevals, Sevals | Sx_n, Sx_n | Sx_2ns, Sx_2ns => true
  | _, _ => false
  end.

(* stark_gen.rs:23-66 StarkContext, the fields read and written by blocks. Zi is a closure. *)
Record mem : Type := mkM { m_sec : sec -> list F3G; m_xdiv : list Fr; m_xdivw : list Fr; m_zi : nat -> res F3G }.
Definition m_set (m : mem) (s : sec) (l : list F3G) : mem :=
  mkM (fun x => if sec_eqb x s then l else m_sec m x) (m_xdiv m) (m_xdivw m) (m_zi m).

(* starkinfo.rs:47-92 StarkInfo, the fields used here: var_pol_map as (section, section_pos, dim) *)
Record sinfo : Type := mkSI {
  si_map : list (sec * nat * nat); si_cm_n : list nat; si_cm_2ns : list nat; si_tmpexp : list nat;
  si_width : sec -> nat (* map_sectionsN *); si_nconst : nat; si_qdim : nat; si_nbits : nat; si_nbits_ext : nat }.

(* types.rs:221-233 parse_pil_number after the text has been read as an i128. Rust's % keeps the sign of
   the dividend; "as u64" keeps the low 64 bits. *)
Definition GLP : Z := 18446744069414584321.
Definition pil_number (k : Z) : Z :=
  let n := if (k <? 0)%Z then (k + GLP)%Z else k in
  ((Z.rem n GLP) mod 2 ^ 64)%Z.
(* a literal outside the range of i128 does not parse and panics; so does Fr::from(u64) from p on
   (field_gl.rs:496-501) *)
Definition number_ref (v : option Z) : res F3G :=
  do k <- unwrap v;
  if ((- 2 ^ 127 <=? k) && (k <? 2 ^ 127) && (pil_number k <? GLP))%Z then Ok (e_from (fof (pil_number k))) else Panic.

(* the two domains "n" (true) and "2ns" (false) *)
Definition dom := bool.

(* interpreter.rs:11-34: an operand is an immediate value or a reference. The address of a reference is
   offset + ((i + next) % modulas) * size; [r_three] tells whether syms has the entry "3". *)
Inductive rsym : Type := RSec (s : sec) | RXdiv | RXdivW | RZi.
Record iref : Type := mkR { r_sym : rsym; r_three : bool; r_off : nat; r_next : nat; r_mod : nat; r_size : nat }.
Inductive operand : Type := Vari (v : F3G) | Refer (r : iref).
Inductive iop : Type :=
| IAdd (a b : operand) | ISub (a b : operand) | IMul (a b : operand) | ICopy (a : operand)
| IWrite (r : iref) | IPush (a : operand) | IRet.

(* lines 228-234 get_i. A zero modulus panics in Rust; it is a power of two here. *)
Definition get_i (r : iref) (i : nat) : nat := r_off r + ((i + r_next r) mod r_mod r) * r_size r.

(* lines 236-283 get_value *)
Definition three (l : list F3G) (a : nat) : res F3G :=
  do x <- vget l a; do x' <- e_to_be x;
  do y <- vget l (a + 1); do y' <- e_to_be y;
  do z <- vget l (a + 2); do z' <- e_to_be z;
  e_from_vec [x'; y'; z'].
Definition three_b (l : list Fr) (a : nat) : res F3G :=
  do x <- vget l a; do y <- vget l (a + 1); do z <- vget l (a + 2); e_from_vec [x; y; z].
Definition get_value (m : mem) (r : iref) (i : nat) : res F3G :=
  match r_sym r with
  | RSec s => if r_three r then three (m_sec m s) (get_i r i) else vget (m_sec m s) (get_i r i)
  | RXdiv => three_b (m_xdiv m) (get_i r i)
  | RXdivW => three_b (m_xdivw m) (get_i r i)
  | RZi => m_zi m i
  end.
Definition operand_value (m : mem) (a : operand) (i : nat) : res F3G :=
  match a with Vari v => Ok v | Refer r => get_value m r i end.

(* lines 145-163: writing. ctx.get_mut panics for the other symbols. *)
Definition write_ref (m : mem) (r : iref) (i : nat) (v : F3G) : res mem :=
  match r_sym r with
  | RSec s =>
      let a := get_i r i in
      if negb (d3 v) || sec_eqb s Stmp then
        do l <- vset (m_sec m s) a v; Ok (m_set m s l)
      else
        do l1 <- vset (m_sec m s) a (e_from (c0 v));
        do l2 <- vset l1 (a + 1) (e_from (c1 v));
        do l3 <- vset l2 (a + 2) (e_from (c2 v));
        Ok (m_set m s l3)
  | _ => Panic
  end.

(* lines 91-175 Block::eval; the stack has its top at the head *)
Fixpoint block_eval (m : mem) (stack : list F3G) (l : list iop) (i : nat) : res (F3G * mem) :=
  match l with
  | [] => Ok (e_ZERO, m)
  | o :: l' =>
      match o with
      | IRet => match stack with v :: _ => Ok (v, m) | [] => Panic end
      | IAdd a b => do x <- operand_value m a i; do y <- operand_value m b i; block_eval m (e_add x y :: stack) l' i
      | ISub a b => do x <- operand_value m a i; do y <- operand_value m b i; block_eval m (e_sub x y :: stack) l' i
      | IMul a b => do x <- operand_value m a i; do y <- operand_value m b i; block_eval m (e_mul x y :: stack) l' i
      | ICopy a | IPush a => do x <- operand_value m a i; block_eval m (x :: stack) l' i
      | IWrite r =>
          match stack with
          | v :: stack' => do m' <- write_ref m r i v; block_eval m' stack' l' i
          | [] => Panic
          end
      end
  end.

(* lines 476-524 eval_map *)
Definition eval_map (si : sinfo) (pol_id : nat) (prime : bool) (next modulas : nat) : res iref :=
  do p <- vget (si_map si) pol_id;
  let '(s, pos, dim) := p in
  if (dim =? 1) || (dim =? 3) then
    Ok (mkR (RSec s) (dim =? 3) pos (if prime then next else 0) modulas (si_width si s))
  else Panic.
Definition cm_ref (si : sinfo) (r : node) (d : dom) (next modulas : nat) : res iref :=
  do pol_id <- vget (if d then si_cm_n si else si_cm_2ns si) (n_id r);
  eval_map si pol_id (n_prime r) next modulas.
Definition tmpexp_ref (si : sinfo) (r : node) (d : dom) (next modulas : nat) : res iref :=
  if d then do pol_id <- vget (si_tmpexp si) (n_id r); eval_map si pol_id (n_prime r) next modulas else Panic.
Definition cell (s : sec) (off next modulas size : nat) : operand := Refer (mkR (RSec s) false off next modulas size).

(* lines 365-474 get_ref *)
Definition get_ref (si : sinfo) (r : node) (d : dom) (next modulas : nat) : res operand :=
  match n_ty r with
  | Ntmp => Ok (cell Stmp (n_id r) 0 modulas 0)
  | Nconst =>
      Ok (if d then cell Sconst_n (n_id r) (if n_prime r then 1 else 0) modulas (si_nconst si)
          else cell Sconst_2ns (n_id r) (if n_prime r then next else 0) modulas (si_nconst si))
  | Ncm => rmap Refer (cm_ref si r d next modulas)
  | NtmpExp => rmap Refer (tmpexp_ref si r d next modulas)
  | Nnumber => rmap Vari (number_ref (n_value r))
  | Npublic => Ok (cell Spublics (n_id r) 0 modulas 0)
  | Nchallenge => Ok (cell Schallenge (n_id r) 0 modulas 0)
  | Neval => Ok (cell Sevals (n_id r) 0 modulas 0)
  | NxDivXSubXi => Ok (Refer (mkR RXdiv true 0 0 modulas 3))
  | NxDivXSubWXi => Ok (Refer (mkR RXdivW true 0 0 modulas 3))
  | Nx => Ok (cell (if d then Sx_n else Sx_2ns) 0 0 modulas 1)
  | NZi => Ok (Refer (mkR RZi false 0 0 modulas 1))
  | _ => Panic
  end.

(* lines 286-363 set_ref: the destination *)
Definition dest_ref (si : sinfo) (r : node) (d : dom) (next modulas : nat) : res iref :=
  match n_ty r with
  | Ntmp => Ok (mkR (RSec Stmp) false (n_id r) 0 modulas 0)
  | Nq =>
      if d then Panic
      else if si_qdim si =? 3 then Ok (mkR (RSec Sq_2ns) true (n_id r) 0 modulas 3)
      else if si_qdim si =? 1 then Ok (mkR (RSec Sq_2ns) false (n_id r) 0 modulas 1)
      else Panic
  | Nf => if d then Panic else Ok (mkR (RSec Sf_2ns) true (n_id r) 0 modulas 3)
  | Ncm => cm_ref si r d next modulas
  | NtmpExp => tmpexp_ref si r d next modulas
  | _ => Panic
  end.

(* lines 187-225 compile_code. src[0..2] of a shorter list panics; "muladd" is not accepted. *)
Definition compile_op (op : cop) (src : list operand) : res iop :=
  match op, src with
  | CAdd, a :: b :: _ => Ok (IAdd a b)
  | CSub, a :: b :: _ => Ok (ISub a b)
  | CMul, a :: b :: _ => Ok (IMul a b)
  | CCopy, a :: _ => Ok (ICopy a)
  | _, _ => Panic
  end.
Definition compile_instr (si : sinfo) (d : dom) (next modulas : nat) (c : instr) : res (list iop) :=
  do src <- mapM (fun r => get_ref si r d next modulas) (i_src c);
  do op <- compile_op (i_op c) src;
  do dst <- dest_ref si (i_dest c) d next modulas;
  Ok [op; IWrite dst].
Definition dom_next (si : sinfo) (d : dom) : nat := if d then 1 else 2 ^ (si_nbits_ext si - si_nbits si).
Definition dom_size (si : sinfo) (d : dom) : nat := if d then 2 ^ si_nbits si else 2 ^ si_nbits_ext si.
Definition compile_code (si : sinfo) (code : list instr) (d : dom) (ret : bool) : res (list iop) :=
  let next := dom_next si d in
  let modulas := dom_size si d in
  do body <- mapM (compile_instr si d next modulas) code;
  if ret then
    match rev code with
    | [] => Panic (* code.len() - 1 underflows *)
    | c :: _ => do r <- get_ref si (i_dest c) d next modulas; Ok (concat body ++ [IPush r; IRet])
    end
  else Ok (concat body).

(* ---- stark_verify.rs ---- *)
(* the fields of the context read by execute_code *)
Record vctx : Type := mkV {
  v_tree1 : list Fr; v_tree2 : list Fr; v_tree3 : list Fr; v_tree4 : list Fr; v_consts : list Fr;
  v_evals : list F3G; v_publics : list F3G; v_challenge : list F3G;
  v_xdiv : list Fr; v_xdivw : list Fr; v_Z : F3G; v_Zp : F3G }.

(* stark_verify.rs:141-151 extract_val *)
Definition extract_val (l : list Fr) (pos dim : nat) : res F3G :=
  if dim =? 1 then rmap e_from (vget l pos) else if dim =? 3 then three_b l pos else Panic.
(* stark_verify.rs:153-184 get_ref; the map of temporaries is a function *)
Definition v_get (x : vctx) (tmp : nat -> option F3G) (r : node) : res F3G :=
  match n_ty r with
  | Ntmp => unwrap (tmp (n_id r))
  | Ntree1 => extract_val (v_tree1 x) (n_pos r) (n_dim r)
  | Ntree2 => extract_val (v_tree2 x) (n_pos r) (n_dim r)
  | Ntree3 => extract_val (v_tree3 x) (n_pos r) (n_dim r)
  | Ntree4 => extract_val (v_tree4 x) (n_pos r) (n_dim r)
  | Nconst => rmap e_from (vget (v_consts x) (n_id r))
  | Neval => vget (v_evals x) (n_id r)
  | Nnumber => number_ref (n_value r)
  | Npublic => vget (v_publics x) (n_id r)
  | Nchallenge => vget (v_challenge x) (n_id r)
  | NxDivXSubXi => three_b (v_xdiv x) 0
  | NxDivXSubWXi => three_b (v_xdivw x) 0
  | Nx => vget (v_challenge x) 7
  | NZ => Ok (if n_prime r then v_Zp x else v_Z x)
  | _ => Panic
  end.
(* stark_verify.rs:203-210 *)
Definition v_op (op : cop) (src : list F3G) : res F3G :=
  match op, src with
  | CAdd, a :: b :: _ => Ok (e_add a b)
  | CSub, a :: b :: _ => Ok (e_sub a b)
  | CMul, a :: b :: _ => Ok (e_mul a b)
  | CMuladd, a :: b :: c :: _ => Ok (e_add (e_mul a b) c)
  | CCopy, a :: _ => Ok a
  | _, _ => Panic
  end.
Fixpoint v_run (x : vctx) (tmp : nat -> option F3G) (code : list instr) : res (nat -> option F3G) :=
  match code with
  | [] => Ok tmp
  | c :: rest =>
      do src <- mapM (v_get x tmp) (i_src c);
      do v <- v_op (i_op c) src;
      match n_ty (i_dest c) with
      | Ntmp => v_run x (fun k => if k =? n_id (i_dest c) then Some v else tmp k) rest
      | _ => Panic
      end
  end.
(* stark_verify.rs:138-213 execute_code *)
Definition execute_code (x : vctx) (code : list instr) : res F3G :=
  match rev code with
  | [] => Panic
  | c :: _ => do tmp <- v_run x (fun _ => None) code; v_get x tmp (i_dest c)
  end.
