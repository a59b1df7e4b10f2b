(* Row hashing, Merkle tree of arity sixteen and transcript over a 254 or 255 bit prime field.
   starky/src/{linearhash,merklehash,transcript}_bn128.rs; the bls12381 files are the same text with
   another modulus, which is the parameter [q] here.  Only Poseidon::hash differs: it returns the second of
   two outputs there (poseidon_bls12381_opt.rs:96-102), so that [hash_ex _ _ 1] is then the list of that
   one.
   An element of that field is the 256-bit number held in its four limbs (the ff crate's Montgomery
   form with factor 2^256), so that values the code builds without checking can be out of range.
   [hash_ex inp init out] stands for Poseidon::hash_ex of the field (poseidon_bn128_opt.rs:99-225),
   on such numbers. *)
From Verif Require Import Base GlModel FrField HashModel.
Open Scope Z_scope.
Open Scope res_scope.

Definition R256 : Z := 2 ^ 256.

(* starky/src/field_bn128.rs:11 and field_bls12381.rs:12: the moduli, with inverses of 2^256 *)
Definition bn_q : Z := 21888242871839275222246405745257275088548364400416034343698204186575808495617.
Definition bn_rinv : Z := 9915499612839321149637521777990102151350674507940716049588462388200839649614.
Definition bls_q : Z := 52435875175126190479447740508185965837690552500527637822603658699938581184513.
Definition bls_rinv : Z := 12549076656233958353659347336803947287922716146853412054870763148006372261952.

(* Fr::from(u64): the word must be below p, else from_repr(..).unwrap() panics
   (fields/src/field_gl.rs:496-501) *)
Definition fr_from (v : Z) : res Fr := if is_valid v then Ok (fof v) else Panic.

(* the four 64-bit limbs, low first *)
Definition limbs (z : Z) : list Z :=
  map (fun i => (z / 2 ^ (64 * Z.of_nat i)) mod 2 ^ 64) (seq 0 4).

(* starky/src/digest.rs:46-54 *)
Definition from_scalar (raw : Z) : res digest := mapM fr_from (limbs raw).

(* starky/src/digest.rs:58-65, wrapped in Fr(..) by the callers *)
Fixpoint as_scalar (d : digest) : Z :=
  match d with [] => 0 | a :: r => fint a + 2 ^ 64 * as_scalar r end.

Section Field.
Variables q rinv : Z.

(* ff: from_repr rejects values from the modulus on, else converts to Montgomery form *)
Definition q_from_repr (v : Z) : res Z := if v <? q then Ok (v * R256 mod q) else Err.
(* ff: into_repr *)
Definition q_value (raw : Z) : Z := raw * rinv mod q.
(* ff: add_assign, mul_assign *)
Definition q_add (a b : Z) : Z := (a + b) mod q.
Definition q_mul (a b : Z) : Z := a * b * rinv mod q.
(* the constants 2^64 and 2^128 in Montgomery form, starky/src/constant.rs:33-38 *)
Definition OFFSET_2_64 : Z := 2 ^ 64 * R256 mod q.
Definition OFFSET_2_128 : Z := 2 ^ 128 * R256 mod q.

Variable hash_ex : list Z -> Z -> nat -> res (list Z).

(* starky/src/poseidon_bn128_opt.rs:94-97 *)
Definition hash_q (inp : list Z) (init : Z) : res Z := do r <- hash_ex inp init 1; vget r 0.

(* starky/src/linearhash_bn128.rs:30-50: three elements per field element; (vals3, acc, accN) *)
Definition acc_step (s : list Z * Z * nat) (e : Fr) : res (list Z * Z * nat) :=
  let '(vals3, acc, n) := s in
  do e <- q_from_repr (fint e);
  let e := match n with 1%nat => q_mul e OFFSET_2_64 | 2%nat => q_mul e OFFSET_2_128 | _ => e end in
  let acc := q_add acc e in
  if (S n =? 3)%nat then Ok (vals3 ++ [acc], 0, O) else Ok (vals3, acc, S n).

(* starky/src/linearhash_bn128.rs:58-68 and 122-126: blocks of sixteen, the last one shorter *)
Definition hash_blocks (vals : list Z) : res Z := foldM (fun st b => hash_q b st) (chunks 16 vals) 0.

(* starky/src/linearhash_bn128.rs:23-69, on one column, which is how it is called *)
Definition hash_matrix1 (col : list Fr) : res Z :=
  do s <- foldM acc_step col ([], 0, O);
  let '(vals3, acc, n) := s in
  let vals3 := if (0 <? n)%nat then vals3 ++ [acc] else vals3 in
  match vals3 with
  | [] => Ok 0
  | [v] => Ok v
  | _ => hash_blocks vals3
  end.

(* starky/src/linearhash_bn128.rs:72-90 *)
Definition to_mont (st : digest) : res digest :=
  let bn := as_scalar st in
  do m <- match q_from_repr bn with Ok x => Ok x | _ => Ok (q_mul bn (R256 * R256 mod q)) end;
  from_scalar m.

(* starky/src/digest.rs:162-174: the caller passes at most three non-zero limbs *)
Definition to_q (e : list Fr) : res Z := unwrap (q_from_repr (as_scalar e)).

(* starky/src/linearhash_bn128.rs:94-103 *)
Definition hash_node (elems : list digest) : res digest :=
  if negb (length elems =? 16)%nat then Panic
  else do h <- hash_q (map as_scalar elems) 0; from_scalar h.

(* starky/src/linearhash_bn128.rs:105-129 *)
Definition hash_array (vals : list Fr) : res digest :=
  if (length vals <=? 4)%nat then to_mont (pad_to 4 vals)
  else
    do tmp <- mapM (fun c => to_q (pad_to 4 c)) (chunks 3 vals);
    do h <- hash_blocks tmp;
    from_scalar h.

(** * Merkle tree *)
Open Scope nat_scope.

(* (n - 1) / 16 + 1 *)
Definition sixteenth (n : nat) : nat := (n - 1) / 16 + 1.

(* starky/src/merklehash_bn128.rs:30-38 *)
Fixpoint n_nodes_loop16 (fuel n next acc : nat) : nat :=
  match fuel with
  | O => acc
  | S fu =>
    if n <=? 1 then acc
    else let n := next in
         let next := sixteenth n in
         n_nodes_loop16 fu n next (if 1 <? n then acc + next * 16 else acc + 1)
  end.

(* starky/src/merklehash_bn128.rs:26-40 *)
Definition get_n_nodes16 (n : nat) : res nat :=
  if n =? 0 then Panic else Ok (n_nodes_loop16 n n (sixteenth n) (sixteenth n * 16)).

(* starky/src/merklehash_bn128.rs:80-86: len/16 groups *)
Definition do_level16 (buff : list digest) : res (list digest) :=
  mapM (fun i => do g <- slice buff (i * 16) 16; unwrap (hash_node g)) (seq 0 (length buff / 16)).

(* starky/src/merklehash_bn128.rs:44-66 *)
Definition merklize_level16 (workers : nat) (nodes : list digest) (p_in n_ops p_out : nat) : res (list digest) :=
  if (n_ops =? 0) || (workers =? 0) then Panic
  else
    let per := Nat.max ((n_ops - 1) / (workers * 16) + 1) MIN_OPS in
    do buff <- slice nodes p_in (n_ops * 16);
    do parts <- mapM (fun c => unwrap (do_level16 c)) (chunks (16 * per) buff);
    do _ <- slice nodes p_out n_ops;
    let out := concat parts in
    let k := Nat.min n_ops (length out) in
    Ok (firstn p_out nodes ++ firstn k out ++ skipn (p_out + k) nodes).

(* starky/src/merklehash_bn128.rs:211-221 *)
Fixpoint merk_loop16 (fuel workers : nat) (nodes : list digest) (n next p_in p_out : nat) : res (list digest) :=
  match fuel with
  | O => Hang
  | S fu =>
    if n <=? 1 then Ok nodes
    else
      do nodes <- merklize_level16 workers nodes p_in next p_out;
      let n := next in
      let next := sixteenth n in
      merk_loop16 fu workers nodes n next p_out (p_out + next * 16)
  end.

(* starky/src/merklehash_bn128.rs:179-189 *)
Definition rows_per_thread16 (workers width height : nat) : nat :=
  let min_pt := if 1 <? width then MIN_OPS / ((width - 1) / 48 + 1) else 0 in
  Nat.min MAX_OPS (Nat.max min_pt ((height - 1) / workers + 1)).

(* starky/src/merklehash_bn128.rs:193-202 *)
Definition hash_rows16 (width : nat) (ob : list digest * list Fr) : res (list digest) :=
  let (out, bb) := ob in
  if width =? 0 then Panic
  else
    let k := Nat.min (length out) (length bb / width) in
    do hs <- mapM (fun j => do row <- slice bb (j * width) width; unwrap (hash_array row)) (seq 0 k);
    Ok (hs ++ skipn k out).

(* starky/src/merklehash_bn128.rs:191-203 *)
Definition leaf_nodes16 (per width : nat) (nodes : list digest) (buff : list Fr) : res (list digest) :=
  match buff with
  | [] => Ok nodes
  | _ =>
    if (per =? 0) || (per * width =? 0) then Panic
    else
      let nc := chunks per nodes in
      let bc := chunks (per * width) buff in
      do parts <- mapM (hash_rows16 width) (combine nc bc);
      Ok (concat parts ++ concat (skipn (length (combine nc bc)) nc))
  end.

(* starky/src/merklehash_bn128.rs:176-224 *)
Definition merkelize16 (workers : nat) (buff : list Fr) (width height : nat) : res tree :=
  if (height =? 0) || (workers =? 0) then Panic
  else
    do nn <- get_n_nodes16 height;
    do nodes <- leaf_nodes16 (rows_per_thread16 workers width height) width (repeat zero4 nn) buff;
    do nodes <- merk_loop16 (S height) workers nodes height (sixteenth height) 0 (sixteenth height * 16);
    Ok (mkTree buff width height nodes).

(* idx & 0xFFFFFFF0: only the low 32 bits are kept *)
Definition group_start (idx : nat) : nat := Z.to_nat (Z.land (Z.of_nat idx) 4294967280).

(* starky/src/merklehash_bn128.rs:89-106 *)
Fixpoint gen_proof16 (fuel : nat) (nodes : list digest) (idx offset n : nat) : res (list (list Z)) :=
  match fuel with
  | O => Hang
  | S fu =>
    if n <=? 1 then Ok []
    else
      do sibs <- mapM (fun i => do d <- vget nodes (offset + (group_start idx + i)); Ok (as_scalar d)) (seq 0 16);
      do rest <- gen_proof16 fu nodes (idx / 16) (offset + sixteenth n * 16) (sixteenth n);
      Ok (sibs :: rest)
  end.

(* starky/src/merklehash_bn128.rs:226-239 *)
Definition get_group_proof16 (t : tree) (idx : nat) : res (list Fr * list (list Z)) :=
  if t_height t <=? idx then Err
  else
    do v <- mapM (fun i => vget (t_elements t) (t_width t * idx + i)) (seq 0 (t_width t));
    do mp <- gen_proof16 (S (t_height t)) (t_nodes t) idx 0 (t_height t);
    Ok (v, mp).

(* starky/src/merklehash_bn128.rs:108-128.  The value and the index are passed along, not used. *)
Fixpoint root_from_proof16 (mp : list (list Z)) (idx : nat) (value : digest) : res digest :=
  match mp with
  | [] => Ok value
  | s :: mp' =>
    do vals <- slice s 0 16;
    do next <- hash_q vals 0%Z;
    do next <- from_scalar next;
    root_from_proof16 mp' (idx / 16) next
  end.

(* starky/src/merklehash_bn128.rs:130-138 *)
Definition root_from_group_proof16 (mp : list (list Z)) (idx : nat) (vals : list Fr) : res digest :=
  do h <- hash_matrix1 vals;
  do d <- from_scalar h;
  root_from_proof16 mp idx d.

(* starky/src/merklehash_bn128.rs:241-254 *)
Definition verify_group_proof16 (root : digest) (mp : list (list Z)) (idx : nat) (vals : list Fr) : res bool :=
  do r <- root_from_group_proof16 mp idx vals; Ok (list_eqb root r).

(** * Transcript *)

(* starky/src/transcript_bn128.rs:14-20 *)
Record transcript_q : Type := mkTq { q_state : Z; q_pending : list Z; q_out : list Z; q_out3 : list Fr }.

(* starky/src/transcript_bn128.rs:53-61 *)
Definition tq_new : transcript_q := mkTq 0%Z [] [] [].

(* starky/src/transcript_bn128.rs:23-32 *)
Definition update_state_q (t : transcript_q) : res transcript_q :=
  do out <- hash_ex (q_pending t ++ repeat 0%Z (16 - length (q_pending t))) (q_state t) 17;
  do st <- vget out 0;
  Ok (mkTq st [] out []).

(* starky/src/transcript_bn128.rs:33-41: [out] is cleared, [out3] is kept *)
Definition add_1_q (t : transcript_q) (e : Z) : res transcript_q :=
  let t := mkTq (q_state t) (q_pending t ++ [e]) [] (q_out3 t) in
  if length (q_pending t) =? 16 then update_state_q t else Ok t.

(* starky/src/transcript_bn128.rs:43-50 *)
Definition get_fields253 (t : transcript_q) : res (Z * transcript_q) :=
  match q_out t with
  | v :: r => Ok (v, mkTq (q_state t) (q_pending t) r (q_out3 t))
  | [] =>
    do t <- update_state_q t;
    match q_out t with
    | v :: r => Ok (v, mkTq (q_state t) (q_pending t) r (q_out3 t))
    | [] => Hang
    end
  end.

(* starky/src/transcript_bn128.rs:78-81 and helper.rs:61-65: three 64-bit words of the value,
   reduced modulo p *)
Definition split3 (v : Z) : list Fr :=
  map (fun i => fof ((q_value v / 2 ^ (64 * Z.of_nat i)) mod 2 ^ 64)%Z) (seq 0 3).

(* starky/src/transcript_bn128.rs:70-87; at most two recursive calls *)
Definition pop3 (t : transcript_q) : option (Fr * transcript_q) :=
  match q_out3 t with
  | v :: r => Some (v, mkTq (q_state t) (q_pending t) (q_out t) r)
  | [] => None
  end.
Definition refill3 (t : transcript_q) : transcript_q :=
  match q_out t with
  | v :: r => mkTq (q_state t) (q_pending t) r (split3 v)
  | [] => t
  end.
Definition get_fields1_q (t : transcript_q) : res (Fr * transcript_q) :=
  match pop3 t with
  | Some x => Ok x
  | None =>
    match pop3 (refill3 t) with
    | Some x => Ok x
    | None => do t <- update_state_q t; match pop3 (refill3 t) with Some x => Ok x | None => Hang end
    end
  end.

(* starky/src/transcript_bn128.rs:63-68 *)
Definition get_field_q (t : transcript_q) : res (Fr * Fr * Fr * transcript_q) :=
  do at_ <- unwrap (get_fields1_q t); let (a, t) := at_ in
  do bt <- unwrap (get_fields1_q t); let (b, t) := bt in
  do ct <- unwrap (get_fields1_q t); let (c, t) := ct in
  Ok (a, b, c, t).

(* starky/src/transcript_bn128.rs:91-98: one element as a number, or four as the limbs of a field
   element *)
Definition put_value (e : list Fr) : res Z :=
  match e with
  | [a] => unwrap (q_from_repr (fint a))
  | [_; _; _; _] => Ok (as_scalar e)
  | _ => Panic
  end.

(* starky/src/transcript_bn128.rs:89-102 *)
Definition put_q (t : transcript_q) (es : list (list Fr)) : res transcript_q :=
  foldM (fun t e => do v <- put_value e; add_1_q t v) es t.

(* starky/src/transcript_bn128.rs:108-110 *)
Fixpoint get_many253 (n : nat) (t : transcript_q) : res (list Z * transcript_q) :=
  match n with
  | O => Ok ([], t)
  | S m =>
    do vt <- get_fields253 t; let (v, t) := vt in
    do rt <- get_many253 m t; let (r, t) := rt in
    Ok (v :: r, t)
  end.

(* starky/src/transcript_bn128.rs:104-132 *)
Definition get_permutations_q (t : transcript_q) (n nbits : nat) : res (list Z * transcript_q) :=
  if n * nbits =? 0 then Panic
  else
    do ft <- get_many253 ((n * nbits - 1) / 253 + 1) t; let (fields, t) := ft in
    do r <- bit_groups 253 (map q_value fields) nbits n 0 0%Z;
    Ok (r, t).

End Field.
