(* The AVX-512 builds of the linear hash (starky/src/linearhash.rs:147-302) and of the Merkle tree
   (starky/src/merklehash.rs), which hash two rows or two pairs of nodes at a time.
   [h512] stands for the AVX-512 Poseidon::hash (PosModel.avx512_hash), [perm] for the scalar one
   used along an opening (HashModel). *)
From Verif Require Import Base FrField HashModel.
Open Scope nat_scope.
Open Scope res_scope.

Section Hash512.
Variable h512 : list Fr -> list Fr -> nat -> res (list Fr).

(* st.copy_from_slice(&t) on an array of eight *)
Definition copy8 (t : list Fr) : res (list Fr) := if length t =? 8 then Ok t else Panic.

(* linearhash.rs:269-284: one value of the first half; the block of the second half is taken when
   the block of the first is full, and the two are interleaved by fours *)
Definition absorb512 (f1 : list Fr) (s : list Fr * list Fr * nat) (v : Fr) : res (list Fr * list Fr * nat) :=
  let '(st, inh, count) := s in
  let inh := inh ++ [v] in
  if length inh =? 8 then
    let start := count * 8 in
    do first_half <- slice f1 start 4;
    let inh := firstn 4 inh ++ first_half ++ skipn 4 inh in
    do second_half <- slice f1 (start + 4) 4;
    let inh := inh ++ second_half in
    do t <- unwrap (h512 inh st 8);
    do st <- copy8 t;
    Ok (st, [], count + 1)
  else Ok (st, inh, count).

(* linearhash.rs:286-299: the last, padded blocks *)
Definition finish512 (f1 : list Fr) (s : list Fr * list Fr * nat) : res (list Fr) :=
  let '(st, inh, count) := s in
  match inh with
  | [] => Ok st
  | _ =>
    let inh := pad_to 8 inh in
    if count * 8 <=? length f1 then
      let inh := pad_to 16 (inh ++ skipn (count * 8) f1) in
      let middle := firstn 4 (skipn 4 inh) in
      let inh := firstn 4 inh ++ skipn 8 inh in
      let inh := firstn 8 inh ++ middle ++ skipn 8 inh in
      do t <- unwrap (h512 inh st 8);
      copy8 t
    else Panic
  end.

(* linearhash.rs:255-264: up to four values of each half; a fifth is out of bounds *)
Definition short512 (f0 f1 : list Fr) : res (list Fr) :=
  if (length f0 <=? 4) && (length f1 <=? 4) then Ok (pad_to 4 f0 ++ pad_to 4 f1) else Panic.

(* linearhash.rs:249-301 _hash: eight words, four for each half *)
Definition lin512_1 (flat : list Fr) : res (list Fr) :=
  let mid := length flat / 2 in
  let f0 := firstn mid flat in
  let f1 := skipn mid flat in
  if mid <=? 4 then short512 f0 f1
  else
    do s <- foldM (absorb512 f1) f0 (repeat FrField.f0 8, [], 0);
    finish512 f1 s.

(* linearhash.rs:180-240 hash.  The buffer of hashes has exactly one group of eight words for each
   chunk of the first half; it is the concatenation of the chunk hashes. *)
Definition lin512 (flat : list Fr) (batch_size : nat) : res (digest * digest) :=
  let mid := length flat / 2 in
  let f0 := firstn mid flat in
  let f1 := skipn mid flat in
  let bs := if batch_size =? 0 then Nat.max 8 ((mid + 3) / 4) else batch_size in
  if mid <=? 4 then do w <- short512 f0 f1; Ok (firstn 4 w, skipn 4 w)
  else
    do hs <- mapM (fun c => unwrap (lin512_1 (fst c ++ snd c))) (combine (chunks bs f0) (chunks bs f1));
    let hashes := concat hs in
    if length hashes <=? 8 then Ok (firstn 4 hashes, firstn 4 (skipn 4 hashes))
    else
      let h := concat (map (firstn 4) (chunks 8 hashes)) ++ concat (map (skipn 4) (chunks 8 hashes)) in
      do tmp <- unwrap (lin512_1 h);
      do a <- slice tmp 0 4; do b <- slice tmp 4 4;
      Ok (a, b).

(* linearhash.rs:154-171 *)
Definition hash_element_matrix512 (vals : list (list Fr)) (batch_size : nat) : res digest :=
  match vals with
  | [] => Panic
  | [] :: _ => Panic
  | v :: _ =>
    if forallb (fun r => length r =? length v) vals then
      do h <- unwrap (lin512 (concat vals ++ concat vals) batch_size); Ok (fst h)
    else Panic
  end.

(** * Merkle tree *)

(* merklehash.rs:158-164, 171-175: four digests at a time; [four] keeps its last contents *)
Definition quad_step (buff : list digest) (fo : list Fr * list digest) (i : nat) : res (list Fr * list digest) :=
  let (_, out) := fo in
  do q <- slice buff (i * 4) 4;
  let four := concat q in
  do h <- unwrap (lin512 four 0);
  Ok (four, out ++ [fst h; snd h]).

(* merklehash.rs:143-182 do_merklize_level *)
Definition do_level512 (buff : list digest) : res (list digest) :=
  let n := length buff / 4 in
  if n =? 0 then
    do two <- slice buff 0 2;
    do h <- unwrap (lin512 (concat two ++ repeat f0 8) 0);
    Ok [fst h]
  else
    do fo <- foldM (quad_step buff) (seq 0 n) (repeat f0 16, []);
    let (four, out) := fo in
    if length buff mod 4 =? 0 then Ok out
    else
      do two <- slice buff (length buff - 2) 2;
      do h <- unwrap (lin512 (concat two ++ skipn 8 four) 0);
      if n * 2 <? length buff / 2 then Ok (out ++ [fst h]) else Panic.

(* merklehash.rs:79-102 with the level function above *)
Definition merklize_level512 (workers : nat) (nodes : list digest) (p_in n_ops p_out : nat) : res (list digest) :=
  if (n_ops =? 0) || (workers =? 0) then Panic
  else
    let per := Nat.max ((n_ops - 1) / (workers * 2) + 1) MIN_OPS in
    do buff <- slice nodes p_in (n_ops * 2);
    do parts <- mapM (fun c => unwrap (do_level512 c)) (chunks (2 * per) buff);
    do _ <- slice nodes p_out n_ops;
    let out := concat parts in
    let k := Nat.min n_ops (length out) in
    Ok (firstn p_out nodes ++ firstn k out ++ skipn (p_out + k) nodes).

(* merklehash.rs:408-420 *)
Fixpoint merk_loop512 (fuel workers : nat) (nodes : list digest) (n64 next p_in p_out : nat) : res (list digest) :=
  match fuel with
  | O => Hang
  | S fu =>
    if n64 <=? 1 then Ok nodes
    else
      do nodes <- merklize_level512 workers nodes p_in next p_out;
      let n64 := next in
      let next := half n64 in
      merk_loop512 fu workers nodes n64 next p_out (p_out + next * 2)
  end.

(* merklehash.rs:380-388: the j-th pair of rows *)
Definition row_pair (width : nat) (bb : list Fr) (out : list digest) (j : nat) : res (list digest) :=
  do batch <- slice bb (j * width * 2) (width * 2);
  do h <- unwrap (lin512 batch 0);
  let index := j * 2 in
  if (index <? length out) && (index + 1 <? length out) then
    do out <- vset out index (fst h); vset out (index + 1) (snd h)
  else Ok out.

(* merklehash.rs:378-397: one chunk; an odd last row is hashed twice *)
Definition hash_rows512 (width : nat) (ob : list digest * list Fr) : res (list digest) :=
  let (out, bb) := ob in
  if width =? 0 then Panic
  else
    let cur_n := length bb / width / 2 in
    do out <- foldM (row_pair width bb) (seq 0 cur_n) out;
    if length bb mod (width * 2) =? 0 then Ok out
    else
      let remaining := skipn (cur_n * width * 2) bb in
      if length remaining =? width then
        do h <- unwrap (lin512 (remaining ++ remaining) 0);
        vset out (cur_n * 2) (fst h)
      else Panic.

(* merklehash.rs:374-398 *)
Definition leaf_nodes512 (per width : nat) (nodes : list digest) (buff : list Fr) : res (list digest) :=
  match buff with
  | [] => Ok nodes
  | _ =>
    if (per =? 0) || (per * width =? 0) then Panic
    else
      let nc := chunks per nodes in
      let bc := chunks (per * width) buff in
      do parts <- mapM (hash_rows512 width) (combine nc bc);
      Ok (concat parts ++ concat (skipn (length (combine nc bc)) nc))
  end.

(* merklehash.rs:355-423 *)
Definition merkelize512 (workers : nat) (buff : list Fr) (width height : nat) : res tree :=
  if (height =? 0) || (workers =? 0) then Panic
  else
    do nn <- get_n_nodes height;
    do nodes <- leaf_nodes512 (rows_per_thread workers width height) width (repeat zero4 nn) buff;
    do nodes <- merk_loop512 (S height) workers nodes height (half height) 0 (half height * 2);
    Ok (mkTree buff width height nodes).

Variable perm : list Fr -> list Fr -> list Fr.

(* merklehash.rs:237-249: the row is hashed twice, the path uses the scalar hash *)
Definition root_from_group_proof512 (mp : list (list Fr)) (idx : nat) (vals : list Fr) : res digest :=
  do h <- lin512 (vals ++ vals) 0; root_from_proof perm mp idx (fst h).

(* merklehash.rs:440-453 *)
Definition verify_group_proof512 (root : digest) (mp : list (list Fr)) (idx : nat) (vals : list Fr) : res bool :=
  do r <- root_from_group_proof512 mp idx vals; Ok (list_eqb root r).
End Hash512.
