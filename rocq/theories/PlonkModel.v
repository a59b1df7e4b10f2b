(* Model of recursion/src/r1cs2plonk.rs and of the parts of recursion/src/compressor12/
   compressor12_setup.rs and compressor12_exec.rs that write, read and run the execution file. *)
From Verif Require Import Base GlModel FrField.
Open Scope nat_scope.
Open Scope res_scope.

(* std BTreeMap<usize, Fr>: the list of its entries in increasing key order *)
Definition bmap := list (nat * Fr).
Fixpoint bget (k : nat) (m : bmap) : option Fr :=
  match m with [] => None | (k', v) :: r => if k =? k' then Some v else bget k r end.
Fixpoint bins (k : nat) (v : Fr) (m : bmap) : bmap :=
  match m with
  | [] => [(k, v)]
  | (k', v') :: r => if k <? k' then (k, v) :: m else if k =? k' then (k, v) :: r else (k', v') :: bins k v r
  end.

(* circom_circuit.rs:27-31 Constraint; 49-57 R1CS (num_aux is not used by the modelled code;
   the custom gates are modelled in CompressorModel) *)
Definition lincomb := list (nat * Fr).
Definition constraint := (lincomb * lincomb * lincomb)%type.
Record R1CS := mkR1CS { num_inputs : nat; num_variables : nat; num_outputs : nat; constraints : list constraint }.

(* r1cs2plonk.rs:10 PlonkGate, 43 PlonkAdd *)
Record PlonkGate := mkGate { g_sl : nat; g_sr : nat; g_so : nat; g_qm : Fr; g_ql : Fr; g_qr : Fr; g_qo : Fr; g_qc : Fr }.
Record PlonkAdd := mkAdd { p_sl : nat; p_sr : nat; p_kl : Fr; p_kr : Fr }.

(* the three &mut arguments pc, pa, n_var, returned *)
Definition state := (list PlonkGate * list PlonkAdd * nat)%type.

(* r1cs2plonk.rs:55-57 normalize *)
Definition normalize (lc : bmap) : bmap := filter (fun kv => negb (feqb (snd kv) f0)) lc.

(* r1cs2plonk.rs:62-69 and 71-78: res[key] += val *)
Definition add_entry (res : bmap) (key : nat) (val : Fr) : bmap :=
  match bget key res with
  | None => bins key val res
  | Some tmp => bins key (fadd val tmp) res
  end.
(* r1cs2plonk.rs:59-81 join *)
Definition join (lc1 : bmap) (k : Fr) (lc2 : bmap) : bmap :=
  let res := fold_left (fun res kv => add_entry res (fst kv) (fmul k (snd kv))) lc1 [] in
  normalize (fold_left (fun res kv => add_entry res (fst kv) (snd kv)) lc2 res).

(* r1cs2plonk.rs:90-98: the constant part and the other non-zero terms *)
Fixpoint split_const (lc : bmap) (k : Fr) (cs : list (nat * Fr)) : Fr * list (nat * Fr) :=
  match lc with
  | [] => (k, cs)
  | (key, val) :: r =>
      if key =? 0 then split_const r (fadd k val) cs
      else if feqb val f0 then split_const r k cs
      else split_const r k (cs ++ [(key, val)])
  end.

(* r1cs2plonk.rs:100-118 the while loop; each iteration shortens cs by one, so the initial length is
   enough fuel (running out is reported as Hang). shift().unwrap() on an empty vector panics. *)
Fixpoint reduce_loop (fuel : nat) (max_c : nat) (cs : list (nat * Fr)) (st : state) : res (list (nat * Fr) * state) :=
  if length cs <=? max_c then Ok (cs, st)
  else match fuel with
  | O => Hang
  | S fuel' =>
      match cs with
      | (sl, v1) :: (sr, v2) :: rest =>
          let '(pc, pa, so) := st in
          reduce_loop fuel' max_c (rest ++ [(so, f1)])
            (pc ++ [mkGate sl sr so f0 (fneg v1) (fneg v2) f1 f0], pa ++ [mkAdd sl sr v1 v2], so + 1)
      | _ => Panic
      end
  end.

(* r1cs2plonk.rs:83-128 reduce_coefs: (k, s, coefs), s and coefs padded with zeros to max_c *)
Definition reduce_coefs (lc : bmap) (max_c : nat) (st : state) : res ((Fr * list nat * list Fr) * state) :=
  let '(k, cs) := split_const lc f0 [] in
  do (cs', st') <- reduce_loop (length cs) max_c cs st;
  let pad := max_c - length cs' in
  Ok ((k, map fst cs' ++ repeat 0 pad, map snd cs' ++ repeat f0 pad), st').

(* r1cs2plonk.rs:130-149 add_constraint_mul *)
Definition add_constraint_mul (la lb lc : bmap) (st : state) : res state :=
  do (A, st1) <- reduce_coefs la 1 st;
  do (B, st2) <- reduce_coefs lb 1 st1;
  do (C, st3) <- reduce_coefs lc 1 st2;
  let '(ak, asg, ac) := A in let '(bk, bsg, bc) := B in let '(ck, csg, cc) := C in
  do sl <- vget asg 0; do sr <- vget bsg 0; do so <- vget csg 0;
  do a0 <- vget ac 0; do b0 <- vget bc 0; do c0 <- vget cc 0;
  let '(pc, pa, n) := st3 in
  Ok (pc ++ [mkGate sl sr so (fmul a0 b0) (fmul a0 bk) (fmul ak b0) (fneg c0) (fsub (fmul ak bk) ck)], pa, n).

(* r1cs2plonk.rs:151-165 add_constraint_sum *)
Definition add_constraint_sum (lc : bmap) (st : state) : res state :=
  do (C, st1) <- reduce_coefs lc 3 st;
  let '(ck, csg, cc) := C in
  do sl <- vget csg 0; do sr <- vget csg 1; do so <- vget csg 2;
  do ql <- vget cc 0; do qr <- vget cc 1; do qo <- vget cc 2;
  let '(pc, pa, n) := st1 in
  Ok (pc ++ [mkGate sl sr so f0 ql qr qo ck], pa, n).

(* r1cs2plonk.rs:167-174 to_be_map: a repeated key trips the assertion *)
Fixpoint to_be_map_from (lc : lincomb) (m : bmap) : res bmap :=
  match lc with
  | [] => Ok m
  | (k, v) :: r => match bget k m with Some _ => Panic | None => to_be_map_from r (bins k v m) end
  end.
Definition to_be_map (lc : lincomb) : res bmap := to_be_map_from lc [].

(* r1cs2plonk.rs:176-197 get_lc_type: "0", "k" or the number of non-constant terms; the zero
   entries are removed from the map, which is returned *)
Inductive lctype := LC0 | LCk | LCn (n : nat).
Fixpoint lc_count (lc : bmap) (k : Fr) (n : nat) : Fr * nat :=
  match lc with
  | [] => (k, n)
  | (key, val) :: r =>
      if feqb val f0 then lc_count r k n
      else if key =? 0 then lc_count r (fadd k val) n
      else lc_count r k (n + 1)
  end.
Definition get_lc_type (lc : bmap) : lctype * bmap :=
  let '(k, n) := lc_count lc f0 0 in
  let t := if 0 <? n then LCn n else if negb (feqb k f0) then LCk else LC0 in
  (t, normalize lc).

(* lc[&0] panics when the key is missing *)
Definition bidx (m : bmap) (k : nat) : res Fr := match bget k m with Some v => Ok v | None => Panic end.

(* r1cs2plonk.rs:199-218 process *)
Definition process (c : constraint) (st : state) : res state :=
  let '(ca, cb, cc) := c in
  do lc_a <- to_be_map ca; do lc_b <- to_be_map cb; do lc_c <- to_be_map cc;
  let '(lca, lc_a) := get_lc_type lc_a in
  let '(lcb, lc_b) := get_lc_type lc_b in
  match lca, lcb with
  | LC0, _ | _, LC0 => add_constraint_sum (normalize lc_c) st
  | LCk, _ => do k <- bidx lc_a 0; add_constraint_sum (join lc_b k lc_c) st
  | _, LCk => do k <- bidx lc_b 0; add_constraint_sum (join lc_a k lc_c) st
  | _, _ => add_constraint_mul lc_a lc_b lc_c st
  end.

(* r1cs2plonk.rs:50-53, 220-227 *)
Definition r1cs2plonk (r : R1CS) : res (list PlonkGate * list PlonkAdd) :=
  do (pc, pa, _) <- foldM (fun st c => process c st) (constraints r) ([], [], num_variables r);
  Ok (pc, pa).

(* ---- the execution file ---- *)
(* fields/src/field_gl.rs From<Fr> for u64: the Montgomery word; from_raw_repr: refuses words >= p *)
Definition fr_to_u64 (a : Fr) : Z := fw a.
Definition fr_from_raw (w : Z) : res Fr := if word_ok w then Ok (of_word w) else Err.

(* compressor12_setup.rs:51-82 write_exec_file and io_utils.rs:3-7: the vector handed to serde_json,
   whose text round-trips exactly (trusted). s_map is indexed [c][i]; a shorter row panics.
   buff is filled position by position; the model concatenates the same values in position order. *)
Definition write_exec (adds : list PlonkAdd) (s_map : list (list Z)) : res (list Z) :=
  match s_map with
  | [] => Panic
  | row0 :: _ =>
      if negb (length s_map =? 12) then Panic else
      let cols := length row0 in
      do body <- mapM (fun i => mapM (fun row => vget row i) s_map) (seq 0 cols);
      Ok (Z.of_nat (length adds) :: Z.of_nat cols ::
          flat_map (fun a => [Z.of_nat (p_sl a); Z.of_nat (p_sr a); fr_to_u64 (p_kl a); fr_to_u64 (p_kr a)]) adds
          ++ concat body)
  end.

(* compressor12_exec.rs:98-112 read_exec_file (buff.split_off(2) panics on fewer than two numbers) *)
Definition read_exec (buff : list Z) : res (nat * nat * list Z * list Z) :=
  match buff with
  | a :: c :: rest =>
      let al := Z.to_nat a in let cl := Z.to_nat c in
      if length rest =? al * 4 + cl * 12 then Ok (al, cl, firstn (al * 4) rest, skipn (al * 4) rest) else Panic
  | _ => Panic
  end.

(* compressor12_exec.rs:58-64: the witness grows by one element per addition *)
Definition exec_add (adds : list Z) (w : list Fr) (i : nat) : res (list Fr) :=
  do r2 <- vget adds (i * 4 + 2); do w2 <- fr_from_raw r2;
  do r3 <- vget adds (i * 4 + 3); do w3 <- fr_from_raw r3;
  do i0 <- vget adds (i * 4); do x0 <- vget w (Z.to_nat i0);
  do i1 <- vget adds (i * 4 + 1); do x1 <- vget w (Z.to_nat i1);
  Ok (w ++ [fadd (fmul x0 w2) (fmul x1 w3)]).
Definition exec_adds (adds_len : nat) (adds : list Z) (w : list Fr) : res (list Fr) :=
  foldM (exec_add adds) (seq 0 adds_len) w.

(* compressor12_exec.rs:70-88: the twelve committed columns, by rows; s = 0 stands for no signal.
   Rows from s_map_column_len up to N are zero. set_matrix on a row >= N panics. *)
Definition exec_cell (s_map : list Z) (w : list Fr) (i c : nat) : res Fr :=
  do s <- vget s_map (i * 12 + c);
  if Z.eqb s 0 then Ok f0 else vget w (Z.to_nat s).
Definition exec_rows (cols N : nat) (s_map : list Z) (w : list Fr) : res (list (list Fr)) :=
  if N <? cols then Panic else
  do rows <- mapM (fun i => mapM (exec_cell s_map w i) (seq 0 12)) (seq 0 cols);
  Ok (rows ++ repeat (repeat f0 12) (N - cols)).

(* compressor12_exec.rs:18-96 after the witness has been computed *)
Definition exec_witness (file : list Z) (N : nat) (w : list Fr) : res (list (list Fr)) :=
  do (al, cl, adds, s_map) <- read_exec file;
  do w' <- exec_adds al adds w;
  exec_rows cl N s_map w'.
