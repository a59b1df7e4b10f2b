(* Model of recursion/src/pilcom/export.rs and expression_counter.rs: the PIL handed to StarkInfo::new, made from
   the analysed PIL of the powdr crate. The types of that crate (powdr::ast::analyzed) are modelled by the fields
   the code reads. HashMaps are functions or lists of pairs. A name is the list of the bytes of its text. Degrees
   (u32 there) and numbers of expressions do not overflow. File names are left out. *)
From Verif Require Import Base VerifierModel StageModel CodegenModel.
From Verif Require ArgModel.
Open Scope nat_scope.
Open Scope list_scope.
Open Scope res_scope.

Definition name : Type := list nat.

(** * The analysed PIL *)

Inductive ptype : Type := Committed | Constant | Intermediate.
Definition is_im (t : ptype) : bool := match t with Intermediate => true | _ => false end.
(* PolyID: id and ptype *)
Definition polyid : Type := nat * ptype.
Inductive binop : Type := BAdd | BSub | BMul | BPow.
(* AlgebraicExpression; the only unary operator is Minus. A number is its value below the modulus. *)
Inductive aexpr : Type :=
| ARef (poly : polyid) (next : bool)
| APublic (n : name)
| AChallenge (id : nat)
| ANumber (v : Z)
| ABin (op : binop) (l r : aexpr)
| AMinus (e : aexpr).
(* Symbol: kind (None is Other), id and length *)
Record symbol : Type := mkSym { sy_kind : option ptype; sy_id : nat; sy_len : option nat }.
(* PublicDeclaration: id, the poly_id of polynomial, array_index and index *)
Record pubdecl : Type := mkPD { pd_id : nat; pd_poly : option polyid; pd_elem : option nat; pd_row : nat }.
Inductive ikind : Type := KPolynomial | KPlookup | KPermutation | KConnect.
(* SelectedExpressions *)
Record selected : Type := mkSel { se_sel : option aexpr; se_exps : list aexpr }.
(* Identity without its source *)
Record identity : Type := mkId { id_kind : ikind; id_left : selected; id_right : selected }.
Inductive statement : Type := SDefinition (n : name) | SPublic (n : name) | SIdentity (i : nat).
(* Analyzed; the counts and the degree are methods of powdr *)
Record analyzed : Type := mkAn {
  an_defs : name -> option symbol;
  an_ims : name -> option (symbol * list aexpr);
  an_pubs : name -> option pubdecl;
  an_ids : list identity;
  an_order : list statement;
  an_ncm : nat; an_nconst : nat }.

(** * Numbers of the expressions: expression_counter.rs *)

(* Symbol::array_elements of powdr: the elements have consecutive numbers, a column that is no array has one *)
Definition sym_count (s : symbol) : nat := match sy_len s with Some l => l | None => 1 end.
(* lines 48-56 *)
Definition sym_exps (s : symbol) : nat := match sy_kind s with Some Intermediate => sym_count s | _ => 0 end.
(* lines 64-68 and 42-46 *)
Definition sel_exps (s : selected) : nat := (match se_sel s with Some _ => 1 | None => 0 end) + length (se_exps s).
Definition id_exps (i : identity) : nat := sel_exps (id_left i) + sel_exps (id_right i).
(* HashMap<u64, u64>, the last insertion first *)
Definition idmap : Type := list (nat * nat).
Definition im_kind (s : symbol) : bool := match sy_kind s with Some Intermediate => true | _ => false end.
(* lines 13-32: one statement *)
Definition count_step (a : analyzed) (st : nat * idmap) (x : statement) : res (nat * idmap) :=
  let '(n, ids) := st in
  match x with
  | SDefinition nm =>
      match an_defs a nm with
      | Some s => if im_kind s then Panic else Ok (n + sym_exps s, ids)
      | None =>
          match an_ims a nm with
          | Some (s, _) => if im_kind s then Ok (n + sym_exps s, rev (map (fun k => (sy_id s + k, n + k)) (seq 0 (sym_count s))) ++ ids) else Panic
          | None => Panic
          end
      end
  | SPublic nm => match an_pubs a nm with Some _ => Ok (n, ids) | None => Panic end
  | SIdentity i => do d <- vget (an_ids a) i; Ok (n + id_exps d, ids)
  end.
(* lines 9-35 *)
Definition intermediate_ids (a : analyzed) : res idmap :=
  do r <- foldM (count_step a) (an_order a) (0, []); Ok (snd r).

(** * Expressions *)

(* export.rs:164-174 *)
Definition ref_op (t : ptype) : eop := match t with Committed => OCm | Constant => OConst | Intermediate => OExp end.
(* lines 352-370 *)
Definition poly_ref (ids : idmap) (p : polyid) (next : bool) : res (nat * expr) :=
  let '(id, t) := p in
  do i <- (if is_im t then unwrap (assoc Nat.eqb ids id) else Ok id);
  Ok (1, mkE (ref_op t) (Some i) next None [] None false).
(* lines 276-350; "pow" is an operator the code generator does not know *)
Fixpoint to_json (a : analyzed) (ids : idmap) (e : aexpr) : res (nat * expr) :=
  match e with
  | ARef p next => poly_ref ids p next
  | APublic n => do d <- unwrap (an_pubs a n); Ok (0, E_new OPublic (Some (pd_id d)) None [])
  | AChallenge i => Ok (0, E_challenge i)
  | ANumber v => Ok (0, E_number v)
  | ABin op l r =>
      do x <- to_json a ids l; let '(dl, jl) := x in
      do y <- to_json a ids r; let '(dr, jr) := y in
      match op with
      | BAdd => Ok (Nat.max dl dr, E_add jl jr)
      | BSub => Ok (Nat.max dl dr, E_sub jl jr)
      | BMul => Ok (dl + dr, E_mul jl jr)
      | BPow => if dl + dr =? 0 then Ok (0, E_new OOther None None [jl; jr]) else Panic
      end
  | AMinus e => do x <- to_json a ids e; let '(d, j) := x in Ok (d, E_neg j)
  end.

(** * The export *)

(* the table of expressions and number_q *)
Record exporter : Type := mkEx { ex_exps : list expr; ex_q : nat }.
Definition set_q (e : expr) : expr := mkE (e_op e) (e_id e) (e_next e) (e_value e) (e_values e) (e_const e) true.
(* lines 251-262 *)
Definition extract (a : analyzed) (ids : idmap) (x : exporter) (e : aexpr) (max_degree : nat) : res (nat * exporter) :=
  do y <- to_json a ids e; let '(d, j) := y in
  let id := length (ex_exps x) in
  if max_degree <? d then Ok (id, mkEx (ex_exps x ++ [set_q j]) (S (ex_q x))) else Ok (id, mkEx (ex_exps x ++ [j]) (ex_q x)).
(* lines 264-270 *)
Definition extract_opt (a : analyzed) (ids : idmap) (x : exporter) (e : option aexpr) (max_degree : nat) : res (option nat * exporter) :=
  match e with
  | Some e => do y <- extract a ids x e max_degree; Ok (Some (fst y), snd y)
  | None => Ok (None, x)
  end.
(* lines 272-274 *)
Fixpoint extract_vec (a : analyzed) (ids : idmap) (x : exporter) (l : list aexpr) (max_degree : nat) : res (list nat * exporter) :=
  match l with
  | [] => Ok ([], x)
  | e :: l => do y <- extract a ids x e max_degree; do z <- extract_vec a ids (snd y) l max_degree; Ok (fst y :: fst z, snd z)
  end.

(* the PIL: expressions, publics (types.rs:12-18: polType, polId and idx), and the identities *)
Record exported : Type := mkXp {
  xp_ex : exporter; xp_publics : list public; xp_pols : list nat; xp_lookups : list ArgModel.lident; xp_perms : list ArgModel.lident; xp_conns : list ArgModel.cident }.
Definition xp_start : exported := mkXp (mkEx [] 0) [] [] [] [] [].
Definition with_ex (o : exported) (x : exporter) : exported := mkXp x (xp_publics o) (xp_pols o) (xp_lookups o) (xp_perms o) (xp_conns o).
(* lines 55-61: the elements of an intermediate column, each compared with the number computed beforehand *)
Fixpoint extract_ims (a : analyzed) (ids : idmap) (x : exporter) (l : list (nat * aexpr)) : res exporter :=
  match l with
  | [] => Ok x
  | (pid, e) :: l =>
      do y <- extract a ids x e 1; do i <- unwrap (assoc Nat.eqb ids pid);
      if fst y =? i then extract_ims a ids (snd y) l else Panic
  end.
(* lines 176-183; constP is no type the prover knows *)
Definition pub_type (t : ptype) : pubkind := match t with Committed => PcmP | Constant => Pother | Intermediate => PimP end.
(* lines 64-83 *)
Definition export_public (ids : idmap) (o : exported) (d : pubdecl) : res exported :=
  do p <- unwrap (pd_poly d); let '(id, t) := p in
  let elem := match pd_elem d with Some k => k | None => 0 end in
  do r <- poly_ref ids (id + elem, t) false;
  do i <- unwrap (e_id (snd r));
  Ok (mkXp (xp_ex o) (xp_publics o ++ [mkPub (pub_type t) i (pd_row d)]) (xp_pols o) (xp_lookups o) (xp_perms o) (xp_conns o)).
(* lines 84-137 *)
Definition export_identity (a : analyzed) (ids : idmap) (o : exported) (d : identity) : res exported :=
  let seld := match id_kind d with KPolynomial => 2 | _ => 1 end in
  do r1 <- extract_vec a ids (xp_ex o) (se_exps (id_left d)) 1; let '(lv, x) := r1 in
  do r2 <- extract_opt a ids x (se_sel (id_left d)) seld; let '(sel_left, x) := r2 in
  do r3 <- extract_vec a ids x (se_exps (id_right d)) 1; let '(rv, x) := r3 in
  do r4 <- extract_opt a ids x (se_sel (id_right d)) 1; let '(sel_right, x) := r4 in
  match id_kind d with
  | KPolynomial => do e <- unwrap sel_left; Ok (mkXp x (xp_publics o) (xp_pols o ++ [e]) (xp_lookups o) (xp_perms o) (xp_conns o))
  | KPlookup => Ok (mkXp x (xp_publics o) (xp_pols o) (xp_lookups o ++ [ArgModel.mkL (Some lv) (Some rv) sel_left sel_right]) (xp_perms o) (xp_conns o))
  | KPermutation => Ok (mkXp x (xp_publics o) (xp_pols o) (xp_lookups o) (xp_perms o ++ [ArgModel.mkL (Some lv) (Some rv) sel_left sel_right]) (xp_conns o))
  | KConnect => Ok (mkXp x (xp_publics o) (xp_pols o) (xp_lookups o) (xp_perms o) (xp_conns o ++ [ArgModel.mkCI (Some lv) (Some rv)]))
  end.
(* lines 50-139: one statement *)
Definition export_step (a : analyzed) (ids : idmap) (o : exported) (x : statement) : res exported :=
  match x with
  | SDefinition nm =>
      match an_ims a nm with
      | Some (s, vals) =>
          if im_kind s then
            do ex <- extract_ims a ids (xp_ex o) (combine (map (fun k => sy_id s + k) (seq 0 (sym_count s))) vals); Ok (with_ex o ex)
          else Panic
      | None => Ok o
      end
  | SPublic nm => do d <- unwrap (an_pubs a nm); export_public ids o d
  | SIdentity i => do d <- vget (an_ids a) i; export_identity a ids o d
  end.
(* lines 43-155, without the references (lines 208-249), whose names fixup_name below makes *)
Definition export (a : analyzed) : res exported :=
  do ids <- intermediate_ids a; foldM (export_step a ids) (an_order a) xp_start.

(** * Names and lines *)

Definition dot : nat := 46.
Definition colon : nat := 58.
(* str::rfind("::") on bytes: the last position of two colons *)
Fixpoint rfind_cc (l : list nat) : option nat :=
  match l with
  | [] => None
  | c :: r =>
      match rfind_cc r with
      | Some i => Some (S i)
      | None => match r with d :: _ => if (c =? colon) && (d =? colon) then Some 0 else None | [] => None end
      end
  end.
(* export.rs:185-195 *)
Definition fixup_name (n : name) : res name :=
  if existsb (Nat.eqb dot) n then Ok n
  else match rfind_cc n with
       | Some last => Ok (firstn last n ++ dot :: skipn (last + 1) n)
       | None => Panic
       end.
(* lines 384-386, on bytes *)
Fixpoint breaks (i : nat) (src : list nat) : list nat :=
  match src with
  | [] => []
  | c :: r => if c =? 10 then (i + 1) :: breaks (S i) r else breaks (S i) r
  end.
Definition line_starts (src : list nat) : list nat := 0 :: breaks 0 src.
(* slice::binary_search on an increasing list without repetition: the position of the element, or where it would
   be inserted *)
Fixpoint search (l : list nat) (x : nat) : bool * nat :=
  match l with
  | [] => (false, 0)
  | y :: r => if y <? x then let '(b, i) := search r x in (b, S i) else (y =? x, 0)
  end.
(* lines 388-396 *)
Definition offset_to_line_col (offset : nat) (starts : list nat) : res (nat * nat) :=
  let '(found, i) := search starts offset in
  let line := if found then i + 1 else i in
  if line =? 0 then Panic else
  do s <- vget starts (line - 1);
  if offset <? s then Panic else Ok (line, offset - s).
