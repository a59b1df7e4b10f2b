(* Model of the tables of polynomial values on disk, starky/src/polsarray.rs.
   A file is its list of bytes. The values lie in the file row by row. *)
From Verif Require Import Base GlModel FrField F3gModel BnModel BinModel.
Open Scope Z_scope.
Open Scope res_scope.

(* polsarray.rs:12-19, without the names; [p_array] is a list of columns *)
Record pols : Type := mkPols { nPols : nat; p_n : nat; p_array : list (list Fr) }.

(* polsarray.rs:139-140 and 185-186: totalSize and the size of the buffer in words *)
Definition totalSize (t : pols) : nat := (nPols t * p_n t)%nat.
Definition buffSize (t : pols) : nat := Z.to_nat (Z.min (Z.of_nat (totalSize t)) (1024 * 1024 * 32)).

(* array[j][i] *)
Definition at_ (a : list (list Fr)) (j i : nat) : res Fr := do col <- vget a j; vget col i.

(* the bytes of the words of a buffer; the code assumes a little-endian machine *)
Definition word_bytes (ws : list Z) : list Z := concat (map u64 ws).

(* polsarray.rs:192-204: one value is put into the buffer, a full buffer is written. The capacity of
   the vector is its length (vec! allocates exactly). *)
Definition push (st : list Z * list Z * nat) (v : Z) : res (list Z * list Z * nat) :=
  let '(out, buff, p) := st in
  do buff <- vset buff p v;
  let p := S p in
  if (p =? length buff)%nat then Ok (out ++ word_bytes buff, buff, O) else Ok (out, buff, p).

(* polsarray.rs:184-217: the bytes handed to the writer, which is taken not to fail *)
Definition save (t : pols) : res (list Z) :=
  do st <- foldM (fun st ij => do v <- at_ (p_array t) (snd ij) (fst ij);
                               push st (fint v mod 0xFFFFFFFF00000001))
                 (list_prod (seq 0 (p_n t)) (seq 0 (nPols t)))
                 ([], repeat 0 (buffSize t), O);
  let '(out, buff, p) := st in
  Ok (if (0 <? p)%nat then out ++ word_bytes buff else out).

(* polsarray.rs:170-177, one word; the state is the table, the column i and the row j *)
Definition store (np : nat) (st : list (list Fr) * nat * nat) (w : Z) : res (list (list Fr) * nat * nat) :=
  let '(a, i, j) := st in
  do v <- fr_from w;
  do col <- vget a i; do col <- vset col j v; do a <- vset a i col;
  if (S i =? np)%nat then Ok (a, O, S j) else Ok (a, S i, j).

(* the first n words of some bytes *)
Fixpoint words (n : nat) (l : list Z) : list Z :=
  match n with O => [] | S n => le_val (firstn 8 l) :: words n (skipn 8 l) end.

(* polsarray.rs:146-179. [rd s] is the number of bytes the s-th call of read hands out: at least one when
   there are bytes left, at most what was asked for. At the end of the file it hands out none however
   often it is called. A call of read that fails is left out. [fuel] exceeds the number of bytes left. *)
Fixpoint load_loop (rd : nat -> nat) (t : pols) (fuel s : nat) (file : list Z) (st : list (list Fr) * nat * nat) (k : nat)
    : res (list (list Fr)) :=
  if (k <? totalSize t)%nat then
    match fuel with
    | O => Hang
    | S fuel =>
        let n := Nat.min (buffSize t) (totalSize t - k) in
        match file with
        | [] => Hang
        | _ =>
            let rs := Nat.max 1 (Nat.min (rd s) (Nat.min (n * 8) (length file))) in
            let n := (rs / 8)%nat in
            do st <- foldM (store (nPols t)) (words n file) st;
            load_loop rd t fuel (S s) (skipn rs file) st (k + n)
        end
    end
  else Ok (fst (fst st)).

(* polsarray.rs:137-182 *)
Definition load (rd : nat -> nat) (t : pols) (file : list Z) : res pols :=
  do a <- load_loop rd t (S (length file)) 0 file (p_array t, O, O) 0;
  Ok (mkPols (nPols t) (p_n t) a).

(* polsarray.rs:219-227, with extension elements; par_chunks_mut panics for chunks of no element *)
Definition write_buff (t : pols) : res (list F3G) :=
  if (nPols t =? 0)%nat then Panic
  else mapM (fun ij => rmap e_from (at_ (p_array t) (snd ij) (fst ij))) (list_prod (seq 0 (p_n t)) (seq 0 (nPols t))).
