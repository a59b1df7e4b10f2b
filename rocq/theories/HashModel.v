(* Row hashing, Merkle tree and Fiat-Shamir transcript over the Goldilocks field.
   The variants compiled without AVX512 are modelled.
   [perm] stands for the twelve words left in the state by the Poseidon permutation
   (starky/src/poseidon_opt.rs:92-199); the properties hold for every such function. *)
From Verif Require Import Base GlModel FrField.
Open Scope nat_scope.
Open Scope res_scope.

(* starky/src/digest.rs:19: ElementDigest<4, FGL> is an array of four elements; here a list, which
   the operations below keep at length four. *)
Notation digest := (list Fr).
Definition zero4 : digest := repeat f0 4.

(* slice.chunks(k) (std); [k = 0] panics in Rust and is guarded by the callers *)
Fixpoint chunks_f {A} (fuel k : nat) (l : list A) : list (list A) :=
  match fuel, l with
  | _, [] => []
  | O, _ => []
  | S fu, _ => firstn k l :: chunks_f fu k (skipn k l)
  end.
Definition chunks {A} (k : nat) (l : list A) : list (list A) := chunks_f (length l) k l.

(* usize::div_ceil (std) *)
Definition div_ceil (a b : nat) : nat := if a mod b =? 0 then a / b else a / b + 1.

(* starky/src/linearhash.rs:86-91 and 121-125: copy up to four values over four zeros *)
Definition pad_to (n : nat) (l : list Fr) : list Fr := l ++ repeat f0 (n - length l).

Section Hash.
Variable perm : list Fr -> list Fr -> list Fr.

(* starky/src/poseidon_opt.rs:76-96,199: eight inputs and four capacity words, else an error *)
Definition poseidon_hash (inp init : list Fr) (out : nat) : res (list Fr) :=
  if negb (length inp =? 8) then Err
  else if negb (length init =? 4) then Err
  else Ok (firstn out (perm inp init)).

(* Result::unwrap (std) *)
Definition unwrap {A} (r : res A) : res A := match r with Err => Panic | _ => r end.

(* starky/src/linearhash.rs:127-135: the absorbing loop, with the state and the pending block *)
Definition absorb_step (sb : list Fr * list Fr) (v : Fr) : res (list Fr * list Fr) :=
  let (st, buf) := sb in
  let buf := buf ++ [v] in
  if length buf =? 8 then do t <- unwrap (poseidon_hash buf st 4); Ok (t, [])
  else Ok (st, buf).

(* starky/src/linearhash.rs:119-145 *)
Definition lin_hash1 (flat : list Fr) : res digest :=
  if length flat <=? 4 then Ok (pad_to 4 flat)
  else
    do sb <- foldM absorb_step flat (zero4, []);
    let (st, buf) := sb in
    match buf with
    | [] => Ok st
    | _ => unwrap (poseidon_hash (pad_to 8 buf) st 4)
    end.

(* starky/src/linearhash.rs:79-110.  The hashes of the chunks are written to consecutive groups of
   four words: their concatenation. *)
Definition lin_hash (flat : list Fr) (batch_size : nat) : res digest :=
  let bs := if batch_size =? 0 then Nat.max 8 (div_ceil (length flat) 4) else batch_size in
  if length flat <=? 4 then Ok (pad_to 4 flat)
  else
    do hs <- mapM (fun c => unwrap (lin_hash1 c)) (chunks bs flat);
    let hashes := concat hs in
    if length hashes <=? 4 then Ok (pad_to 4 hashes) else lin_hash1 hashes.

(* starky/src/linearhash.rs:56-70: rows are flattened; an empty matrix and rows of another length
   than the first panic *)
Definition hash_element_matrix (vals : list (list Fr)) (batch_size : nat) : res digest :=
  match vals with
  | [] => Panic
  | [] :: _ => Panic
  | v :: _ => if forallb (fun r => length r =? length v) vals then lin_hash (concat vals) batch_size else Panic
  end.

(** * Merkle tree *)

(* starky/src/merklehash.rs:37-44 *)
Record tree : Type := mkTree {
  t_elements : list Fr; t_width : nat; t_height : nat; t_nodes : list digest
}.

(* (n - 1) / 2 + 1, for n >= 1 *)
Definition half (n : nat) : nat := (n - 1) / 2 + 1.

(* starky/src/merklehash.rs:51-59: the loop; [fuel] >= n suffices *)
Fixpoint n_nodes_loop (fuel n next acc : nat) : nat :=
  match fuel with
  | O => acc
  | S fu =>
    if n <=? 1 then acc
    else let n := next in
         let next := half n in
         n_nodes_loop fu n next (if 1 <? n then acc + next * 2 else acc + 1)
  end.

(* starky/src/merklehash.rs:47-61; zero underflows *)
Definition get_n_nodes (n : nat) : res nat :=
  if n =? 0 then Panic else Ok (n_nodes_loop n n (half n) (half n * 2)).

(* starky/src/merklehash.rs:117-138: buff_in.len()/2 pairs; a trailing odd digest is ignored *)
Fixpoint do_merklize_level (buff : list digest) : res (list digest) :=
  match buff with
  | a :: b :: r => do h <- unwrap (lin_hash (a ++ b) 0); do t <- do_merklize_level r; Ok (h :: t)
  | _ => Ok []
  end.

(* &v[a..b], out of bounds panics *)
Definition slice {A} (l : list A) (a n : nat) : res (list A) :=
  if a + n <=? length l then Ok (firstn n (skipn a l)) else Panic.

(* starky/src/constant.rs:116-117 *)
Definition MIN_OPS : nat := 4096.
Definition MAX_OPS : nat := 64 * 4096.

(* starky/src/merklehash.rs:79-102; [workers] is get_max_workers() (constant.rs:120-122), zero of
   them divides by zero.  The chunks are processed in parallel and their results appended in order. *)
Definition merklize_level (workers : nat) (nodes : list digest) (p_in n_ops p_out : nat) : res (list digest) :=
  if (n_ops =? 0) || (workers =? 0) then Panic
  else
    let per := Nat.max ((n_ops - 1) / (workers * 2) + 1) MIN_OPS in
    do buff <- slice nodes p_in (n_ops * 2);
    do parts <- mapM (fun c => unwrap (do_merklize_level c)) (chunks (2 * per) buff);
    do _ <- slice nodes p_out n_ops;
    let out := concat parts in
    let k := Nat.min n_ops (length out) in
    Ok (firstn p_out nodes ++ firstn k out ++ skipn (p_out + k) nodes).

(* starky/src/merklehash.rs:330-343 *)
Fixpoint merk_loop (fuel workers : nat) (nodes : list digest) (n64 next p_in p_out : nat) : res (list digest) :=
  match fuel with
  | O => Hang
  | S fu =>
    if n64 <=? 1 then Ok nodes
    else
      do nodes <- merklize_level workers nodes p_in next p_out;
      let n64 := next in
      let next := half n64 in
      merk_loop fu workers nodes n64 next p_out (p_out + next * 2)
  end.

(* starky/src/merklehash.rs:296-307: rows handed to one thread *)
Definition rows_per_thread (workers width height : nat) : nat :=
  let div := Nat.max (width / 8) 1 in
  Nat.max (MIN_OPS / div) (Nat.min (MAX_OPS / div) ((height - 1) / workers + 1)).

(* starky/src/merklehash.rs:315-322: one chunk of leaves over the corresponding chunk of nodes.
   An empty width divides by zero. *)
Definition hash_rows (width : nat) (ob : list digest * list Fr) : res (list digest) :=
  let (out, bb) := ob in
  if width =? 0 then Panic
  else
    let k := Nat.min (length out) (length bb / width) in
    do hs <- mapM (fun j => do row <- slice bb (j * width) width; unwrap (lin_hash row 0)) (seq 0 k);
    Ok (hs ++ skipn k out).

(* starky/src/merklehash.rs:309-323.  The chunks of nodes beyond the last chunk of the buffer keep
   their default. *)
Definition leaf_nodes (per width : nat) (nodes : list digest) (buff : list Fr) : res (list digest) :=
  match buff with
  | [] => Ok nodes
  | _ =>
    if (per =? 0) || (per * width =? 0) then Panic
    else
      let nc := chunks per nodes in
      let bc := chunks (per * width) buff in
      do parts <- mapM (hash_rows width) (combine nc bc);
      Ok (concat parts ++ concat (skipn (length (combine nc bc)) nc))
  end.

(* starky/src/merklehash.rs:293-346 *)
Definition merkelize (workers : nat) (buff : list Fr) (width height : nat) : res tree :=
  if (height =? 0) || (workers =? 0) then Panic
  else
    do nn <- get_n_nodes height;
    do nodes <- leaf_nodes (rows_per_thread workers width height) width (repeat zero4 nn) buff;
    do nodes <- merk_loop (S height) workers nodes height (half height) 0 (half height * 2);
    Ok (mkTree buff width height nodes).

(* starky/src/merklehash.rs:64-76 *)
Fixpoint gen_proof (fuel : nat) (nodes : list digest) (idx offset n : nat) : res (list (list Fr)) :=
  match fuel with
  | O => Hang
  | S fu =>
    if n <=? 1 then Ok []
    else
      do sib <- vget nodes (offset + Nat.lxor idx 1);
      do rest <- gen_proof fu nodes (idx / 2) (offset + half n * 2) (half n);
      Ok (sib :: rest)
  end.

(* starky/src/merklehash.rs:425-438 *)
Definition get_group_proof (t : tree) (idx : nat) : res (list Fr * list (list Fr)) :=
  if t_height t <=? idx then Err
  else
    do v <- mapM (fun i => vget (t_elements t) (t_width t * idx + i)) (seq 0 (t_width t));
    do mp <- gen_proof (S (t_height t)) (t_nodes t) idx 0 (t_height t);
    Ok (v, mp).

(* starky/src/merklehash.rs:184-211; recursion over the remaining path *)
Fixpoint root_from_proof (mp : list (list Fr)) (idx : nat) (value : digest) : res digest :=
  match mp with
  | [] => Ok value
  | s :: mp' =>
    do s4 <- slice s 0 4;
    let inhash := if Nat.even idx then value ++ s4 else s4 ++ value in
    do next <- poseidon_hash inhash zero4 4;
    root_from_proof mp' (idx / 2) next
  end.

(* starky/src/merklehash.rs:220-228 *)
Definition root_from_group_proof (mp : list (list Fr)) (idx : nat) (vals : list Fr) : res digest :=
  do h <- lin_hash vals 0; root_from_proof mp idx h.

Fixpoint list_eqb (a b : list Fr) : bool :=
  match a, b with
  | [], [] => true
  | x :: a', y :: b' => feqb x y && list_eqb a' b'
  | _, _ => false
  end.

(* starky/src/merklehash.rs:440-453 *)
Definition verify_group_proof (root : digest) (mp : list (list Fr)) (idx : nat) (vals : list Fr) : res bool :=
  do r <- root_from_group_proof mp idx vals; Ok (list_eqb root r).

(* starky/src/merklehash.rs:455-457; no nodes: index underflow *)
Definition tree_root (t : tree) : res digest :=
  match t_nodes t with [] => Panic | _ => vget (t_nodes t) (length (t_nodes t) - 1) end.

(** * Transcript *)

(* starky/src/transcript.rs:8-13 *)
Record transcript : Type := mkTr { tr_state : list Fr; tr_pending : list Fr; tr_out : list Fr }.

(* starky/src/transcript.rs:38-45 *)
Definition tr_new : transcript := mkTr zero4 [] [].

(* starky/src/transcript.rs:16-25; out[0..4] panics when shorter *)
Definition update_state (t : transcript) : res transcript :=
  do out <- poseidon_hash (pad_to 8 (tr_pending t)) (tr_state t) 12;
  do st <- slice out 0 4;
  Ok (mkTr st [] out).

(* starky/src/transcript.rs:26-33 *)
Definition add_1 (t : transcript) (e : Fr) : res transcript :=
  let t := mkTr (tr_state t) (tr_pending t ++ [e]) [] in
  if length (tr_pending t) =? 8 then update_state t else Ok t.

(* starky/src/transcript.rs:64-71 *)
Definition put (t : transcript) (es : list (list Fr)) : res transcript :=
  foldM (fun t e => foldM add_1 e t) es t.

(* starky/src/transcript.rs:54-62; the recursion is entered at most once more, after update_state
   has refilled [out] *)
Definition get_fields1 (t : transcript) : res (Fr * transcript) :=
  match tr_out t with
  | v :: r => Ok (v, mkTr (tr_state t) (tr_pending t) r)
  | [] =>
    do t <- update_state t;
    match tr_out t with
    | v :: r => Ok (v, mkTr (tr_state t) (tr_pending t) r)
    | [] => Hang
    end
  end.

(* starky/src/transcript.rs:47-52 *)
Definition get_field (t : transcript) : res (Fr * Fr * Fr * transcript) :=
  do at_ <- unwrap (get_fields1 t); let (a, t) := at_ in
  do bt <- unwrap (get_fields1 t); let (b, t) := bt in
  do ct <- unwrap (get_fields1 t); let (c, t) := ct in
  Ok (a, b, c, t).

(* starky/src/transcript.rs:77-80 *)
Fixpoint get_many (n : nat) (t : transcript) : res (list Fr * transcript) :=
  match n with
  | O => Ok ([], t)
  | S m =>
    do vt <- get_fields1 t; let (v, t) := vt in
    do rt <- get_many m t; let (r, t) := rt in
    Ok (v :: r, t)
  end.

(* starky/src/transcript.rs:87-98: one bit group.  [w] is the number of bits used of every field
   element (63 here).  A shift of 1usize by 64 or more overflows. *)
Fixpoint bit_group (w : Z) (fields : list Z) (nbits : nat) (j : Z) (cf : nat) (cb : Z) (a : Z)
  : res (Z * nat * Z) :=
  match nbits with
  | O => Ok (a, cf, cb)
  | S m =>
    do f <- vget fields cf;
    do a <- (if Z.testbit f cb then if (j <? 64)%Z then Ok (a + 2 ^ j)%Z else Panic else Ok a);
    let cb := (cb + 1)%Z in
    if (cb =? w)%Z then bit_group w fields m (j + 1)%Z (S cf) 0%Z a
    else bit_group w fields m (j + 1)%Z cf cb a
  end.

(* starky/src/transcript.rs:82-101 *)
Fixpoint bit_groups (w : Z) (fields : list Z) (nbits n cf : nat) (cb : Z) : res (list Z) :=
  match n with
  | O => Ok []
  | S m =>
    do x <- bit_group w fields nbits 0%Z cf cb 0%Z;
    let '(a, cf, cb) := x in
    do r <- bit_groups w fields nbits m cf cb;
    Ok (a :: r)
  end.

(* starky/src/transcript.rs:73-102; n * nbits = 0 underflows *)
Definition get_permutations (t : transcript) (n nbits : nat) : res (list Z * transcript) :=
  if n * nbits =? 0 then Panic
  else
    do ft <- get_many ((n * nbits - 1) / 63 + 1) t; let (fields, t) := ft in
    do r <- bit_groups 63 (map fint fields) nbits n 0 0%Z;
    Ok (r, t).

End Hash.
