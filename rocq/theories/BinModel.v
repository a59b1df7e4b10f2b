(* Model of the binary readers and writers of algebraic/src: witness/witness_calculator.rs,
   reader.rs and r1cs_file.rs; algebraic-gpu/src/r1cs_file.rs is the same text, the witness reader of
   algebraic-gpu/src/reader.rs differs and is modelled next to the other one.
   A file is its list of bytes, a byte is a number from 0 to 255. Memory is unbounded: the
   Vec::with_capacity calls, which can abort on sizes read from a file, are left out. A u32 or usize
   that overflows panics when [oc] (overflow checks: debug builds) is set and wraps otherwise. *)
From Verif Require Import Base.
Open Scope Z_scope.
Open Scope res_scope.

Notation byte := Z (only parsing).

(* std u32/u64 to_le_bytes and from_le_bytes *)
Fixpoint le_bytes (n : nat) (v : Z) : list byte :=
  match n with O => [] | S n => v mod 256 :: le_bytes n (v / 256) end.
Fixpoint le_val (l : list byte) : Z := match l with [] => 0 | b :: r => b + 256 * le_val r end.

(* std Read::read_exact: the bytes read and the rest; UnexpectedEof is an error *)
Definition read_exact (n : Z) (l : list byte) : res (list byte * list byte) :=
  if n <=? Z.of_nat (length l) then Ok (firstn (Z.to_nat n) l, skipn (Z.to_nat n) l) else Err.
(* byteorder ReadBytesExt *)
Definition read_u32 (l : list byte) : res (Z * list byte) := do (b, r) <- read_exact 4 l; Ok (le_val b, r).
Definition read_u64 (l : list byte) : res (Z * list byte) := do (b, r) <- read_exact 8 l; Ok (le_val b, r).
(* byteorder WriteBytesExt *)
Definition u32 (v : Z) : list byte := le_bytes 4 v.
Definition u64 (v : Z) : list byte := le_bytes 8 v.

(* a u32 product *)
Definition mul32 (oc : bool) (a b : Z) : res Z :=
  if a * b <? 2 ^ 32 then Ok (a * b) else if oc then Panic else Ok ((a * b) mod 2 ^ 32).
(* a u32 sum *)
Definition add32 (oc : bool) (a b : Z) : res Z :=
  if a + b <? 2 ^ 32 then Ok (a + b) else if oc then Panic else Ok ((a + b) mod 2 ^ 32).

(** ** limbs *)
(* witness_calculator.rs:26-33 *)
Definition from_array32 (arr : list Z) : Z := fold_left (fun res val => res * 0x100000000 + val) arr 0.

(* witness_calculator.rs:35-47; [c] counts down from the end of the vector. BigInt's % and / truncate
   towards zero, to_u32 of a negative number is None; c -= 1 at zero panics, or wraps to an index out of
   bounds. [done] are the limbs written. *)
Fixpoint to_array32_loop (c : nat) (rem : Z) (done : list Z) : res (list Z) :=
  if rem =? 0 then Ok (repeat 0 c ++ done)
  else match c with
  | O => Panic
  | S c => let d := Z.rem rem 0x100000000 in
           if d <? 0 then Panic else to_array32_loop c (Z.quot rem 0x100000000) (d :: done)
  end.
Definition to_array32 (s : Z) (size : nat) : res (list Z) := to_array32_loop size s [].

(* witness_calculator.rs:155-163: the limbs written to the shared memory at positions 0 .. n32-1 *)
Definition input_words (value : Z) (n32 : nat) : res (list Z) :=
  do f_arr <- to_array32 value n32;
  mapM (fun j => vget f_arr (n32 - 1 - j)%nat) (seq 0 n32).

(* witness_calculator.rs:124-131: the witness values from the words of the shared memory *)
Definition witness_values (n32 witness_size : nat) (wtns_u32 : list Z) : res (list Z) :=
  mapM (fun i =>
    do arr <- foldM (fun arr j => do w <- vget wtns_u32 (i * n32 + j)%nat; vset arr (n32 - 1 - j)%nat w)
                    (seq 0 n32) (repeat 0 n32);
    Ok (from_array32 arr)) (seq 0 witness_size).

(** ** witness files *)
Definition wtns_magic : list byte := [119; 116; 110; 115].

(* num_bigint to_bytes_le: no trailing zero byte, but one byte for zero *)
Definition byte_len (v : Z) : Z := if v =? 0 then 1 else Z.log2 v / 8 + 1.

(* witness_calculator.rs:196-246; n32 and the prime come from the compiled circuit *)
Definition save_witness (oc : bool) (n32 version prime : Z) (wtns : list Z) : res (list byte) :=
  do fs <- mul32 oc n32 4;
  do sec_size <- add32 oc fs 8;
  if negb (0 <? prime) then Err
  else if negb (byte_len prime =? fs) then Err
  else if n32 =? 0 then Panic
  else
    let wtns_size := (Z.of_nat (length wtns) mod 2 ^ 32) / n32 in
    do body <- mul32 oc wtns_size fs;
    Ok (wtns_magic ++ u32 version ++ u32 2 ++ u32 1 ++ u64 sec_size ++ u32 fs ++ le_bytes (Z.to_nat fs) prime
        ++ u32 wtns_size ++ u32 2 ++ u64 body ++ concat (map u32 wtns)).

Definition bn_prime : Z := 21888242871839275222246405745257275088548364400416034343698204186575808495617.
Definition bls_prime : Z := 52435875175126190479447740508185965837690552500527637822603658699938581184513.
Definition gl_prime : Z := 18446744069414584321.

(* ff: PrimeFieldRepr::read_le, then from_repr, which refuses values from the modulus q on; the
   representation has rb bytes. A field element is its value. *)
Definition read_field (q rb : Z) (l : list byte) : res (Z * list byte) :=
  do (b, r) <- read_exact rb l;
  if le_val b <? q then Ok (le_val b, r) else Err.

(* n reads in a row: for _ in 0..n. The loop stops at the first error, so the bytes left bound the
   number of iterations: [S (length l)] is enough fuel when each read takes a byte at least. *)
Fixpoint read_many_fuel {A} (fuel : nat) (rd : list byte -> res (A * list byte)) (n : Z) (l : list byte)
  : res (list A * list byte) :=
  if n <=? 0 then Ok ([], l)
  else match fuel with
  | O => Hang
  | S fuel => do (a, l) <- rd l; do (r, l) <- read_many_fuel fuel rd (n - 1) l; Ok (a :: r, l)
  end.
Definition read_many {A} (rd : list byte -> res (A * list byte)) (n : Z) (l : list byte) : res (list A * list byte) :=
  read_many_fuel (S (length l)) rd n l.

(* reader.rs:86-128: everything before the elements; the number of elements *)
Definition load_wtns_header (oc : bool) (l : list byte) : res (Z * list byte) :=
  do (magic, l) <- read_exact 4 l;
  if negb (forallb (fun p => fst p =? snd p) (combine magic wtns_magic)) then Err
  else
  do (version, l) <- read_u32 l;
  if 2 <? version then Err else
  do (num_sections, l) <- read_u32 l;
  if negb (num_sections =? 2) then Err else
  do (sec_type, l) <- read_u32 l;
  if negb (sec_type =? 1) then Err else
  do (sec_size, l) <- read_u64 l;
  if negb (sec_size =? 4 + 32 + 4) then Err else
  do (field_size, l) <- read_u32 l;
  if negb (field_size =? 32) then Err else
  do (prime, l) <- read_exact field_size l;
  if negb (forallb (fun p => fst p =? snd p) (combine prime (le_bytes 32 bn_prime))) then Err else
  do (witness_len, l) <- read_u32 l;
  do (sec_type, l) <- read_u32 l;
  if negb (sec_type =? 2) then Err else
  do (sec_size, l) <- read_u64 l;
  do body <- mul32 oc witness_len field_size;
  if negb (sec_size =? body) then Err else Ok (witness_len, l).

(* reader.rs:86-137, for a field of modulus q whose representation has 32 bytes; what follows is not read *)
Definition load_witness (oc : bool) (q : Z) (l : list byte) : res (list Z) :=
  do (n, l) <- load_wtns_header oc l;
  do (ws, _) <- read_many (read_field q 32) n l;
  Ok ws.

(* algebraic-gpu/src/reader.rs:104-121: an element that cannot be read or is out of range is skipped.
   After a failing read_exact fewer than 32 bytes are left whether or not it consumes them, so that the
   remaining iterations push nothing. *)
Fixpoint read_skip_fuel (fuel : nat) (q n : Z) (l : list byte) : list Z :=
  match fuel with
  | O => []
  | S fuel =>
      if n <=? 0 then []
      else match read_exact 32 l with
      | Ok (b, l) => if le_val b <? q then le_val b :: read_skip_fuel fuel q (n - 1) l else read_skip_fuel fuel q (n - 1) l
      | _ => []
      end
  end.
(* algebraic-gpu/src/reader.rs:60-122 *)
Definition load_witness_gpu (oc : bool) (q : Z) (l : list byte) : res (list Z) :=
  do (n, l) <- load_wtns_header oc l;
  Ok (read_skip_fuel (S (length l)) q n l).

(** ** R1CS files *)
(* r1cs_file.rs:13-24 *)
Record Header := mkHeader {
  field_size : Z; prime_size : list byte; n_wires : Z; n_pub_out : Z; n_pub_in : Z; n_prv_in : Z;
  n_labels : Z; n_constraints : Z; use_custom_gates : bool }.
(* circom_circuit.rs:27-31 *)
Notation lc := (list (Z * Z)) (only parsing).
Notation cst := (lc * lc * lc)%type (only parsing).
(* circom_circuit.rs:34-38 (the name as its bytes, see read_to_string) and 41-45 *)
Record CustomGates := mkCG { template_name : list byte; parameters : list Z }.
Record CustomGatesUses := mkCU { cu_id : Z; cu_signals : list Z }.
(* r1cs_file.rs:27-35 *)
Record R1CSFile := mkFile {
  f_version : Z; f_header : Header; f_constraints : list cst; f_wire_mapping : list Z;
  f_custom_gates : list CustomGates; f_custom_gates_uses : list CustomGatesUses }.

(* r1cs_file.rs:44-48 *)
Definition HEADER_TYPE : Z := 1.
Definition CONSTRAINT_TYPE : Z := 2.
Definition WIRE2LABEL_TYPE : Z := 3.
Definition CUSTOM_GATES_LIST : Z := 4.
Definition CUSTOM_GATES_USE : Z := 5.

(* r1cs_file.rs:50-69 *)
Definition read_header (size : Z) (l : list byte) : res (Header * list byte) :=
  do (fs, l) <- read_u32 l;
  do (prime, l) <- read_exact fs l;
  if negb (size =? 32 + fs) then Err else
  do (w, l) <- read_u32 l;
  do (po, l) <- read_u32 l;
  do (pi, l) <- read_u32 l;
  do (pr, l) <- read_u32 l;
  do (lb, l) <- read_u64 l;
  do (nc, l) <- read_u32 l;
  Ok (mkHeader fs prime w po pi pr lb nc false, l).

(* std sort_by on the first component: a stable sort *)
Fixpoint ins_term (t : Z * Z) (l : lc) : lc :=
  match l with [] => [t] | u :: r => if fst t <? fst u then t :: u :: r else u :: ins_term t r end.
Definition sort_terms (l : lc) : lc := fold_left (fun acc t => ins_term t acc) l [].

Section Field.
(* the modulus of E::Fr and the number of bytes of its representation *)
Variables q rb : Z.

(* r1cs_file.rs:77-80 *)
Definition read_term (l : list byte) : res ((Z * Z) * list byte) :=
  do (w, l) <- read_u32 l; do (c, l) <- read_field q rb l; Ok ((w, c), l).

(* r1cs_file.rs:71-86: push, then sort, in every iteration *)
Fixpoint read_terms_fuel (fuel : nat) (n : Z) (vec : lc) (l : list byte) : res (lc * list byte) :=
  if n <=? 0 then Ok (vec, l)
  else match fuel with
  | O => Hang
  | S fuel => do (t, l) <- read_term l; read_terms_fuel fuel (n - 1) (sort_terms (vec ++ [t])) l
  end.
Definition read_constraint_vec (l : list byte) : res (lc * list byte) :=
  do (n_vec, l) <- read_u32 l; read_terms_fuel (S (length l)) n_vec [] l.

(* r1cs_file.rs:88-103 *)
Definition read_constraint (l : list byte) : res (cst * list byte) :=
  do (a, l) <- read_constraint_vec l;
  do (b, l) <- read_constraint_vec l;
  do (c, l) <- read_constraint_vec l;
  Ok ((a, b, c), l).
Definition read_constraints (h : Header) (l : list byte) : res (list cst * list byte) :=
  read_many read_constraint (n_constraints h) l.

(* r1cs_file.rs:105-117 *)
Definition read_map (size : Z) (h : Header) (l : list byte) : res (list Z * list byte) :=
  if negb (size =? n_wires h * 8) then Err else
  do (vec, l) <- read_many read_u64 (n_wires h) l;
  do v0 <- vget vec 0;
  if negb (v0 =? 0) then Err else Ok (vec, l).

(* r1cs_file.rs:120-132: at the end of the file the buffer keeps its last byte, which is not zero, and
   the loop goes on forever. The bytes before the conversion from_utf8_lossy. *)
Fixpoint read_to_string (l : list byte) : res (list byte * list byte) :=
  match l with
  | [] => Hang
  | b :: l => if b =? 0 then Ok ([], l) else do (s, l) <- read_to_string l; Ok (b :: s, l)
  end.

(* r1cs_file.rs:141-150 *)
Definition read_custom_gate (l : list byte) : res (CustomGates * list byte) :=
  do (name, l) <- read_to_string l;
  do (n, l) <- read_u32 l;
  do (ps, l) <- read_many (read_field q rb) n l;
  Ok (mkCG name ps, l).
Definition read_custom_gates_list (l : list byte) : res (list CustomGates * list byte) :=
  do (num, l) <- read_u32 l; read_many read_custom_gate num l.

(* r1cs_file.rs:166-181, on the words after the first; indexing out of bounds panics (a number of
   signals above the number of words left runs out of bounds, it is refused at once here) *)
Fixpoint take_signals (n : nat) (ws : list Z) : res (list Z * list Z) :=
  match n with
  | O => Ok ([], ws)
  | S n => match ws with
           | lsb :: msb :: ws => do (s, ws) <- take_signals n ws; Ok (msb * 0x100000000 + lsb :: s, ws)
           | _ => Panic
           end
  end.
Fixpoint take_uses (fuel : nat) (n : Z) (ws : list Z) : res (list CustomGatesUses) :=
  if n <=? 0 then Ok []
  else match fuel with
  | O => Hang
  | S fuel =>
      match ws with
      | id :: num :: ws =>
          if Z.of_nat (length ws) <? num then Panic
          else do (s, ws) <- take_signals (Z.to_nat num) ws; do r <- take_uses fuel (n - 1) ws; Ok (mkCU id s :: r)
      | _ => Panic
      end
  end.
(* r1cs_file.rs:154-183 *)
Definition read_custom_gates_uses_list (size : Z) (l : list byte) : res (list CustomGatesUses) :=
  do (ws, _) <- read_many read_u32 (size / 4) l;
  match ws with
  | [] => Panic
  | n :: ws => take_uses (S (length ws)) n ws
  end.

(* std BTreeMap: insert replaces; the pairs (offset, size) of both maps *)
Notation sections := (list (Z * (Z * Z))) (only parsing).
Definition sec_insert (t : Z) (v : Z * Z) (m : sections) : sections := (t, v) :: filter (fun e => negb (fst e =? t)) m.
Definition sec_get (t : Z) (m : sections) : option (Z * Z) :=
  match find (fun e => fst e =? t) m with Some e => Some (snd e) | None => None end.
Definition sec_unwrap (t : Z) (m : sections) : res (Z * Z) := match sec_get t m with Some v => Ok v | None => Panic end.
Definition sec_has (t : Z) (m : sections) : bool := match sec_get t m with Some _ => true | None => false end.

(* seeking a file: the bytes from an absolute position on; beyond the end there are none *)
Definition at_pos (file : list byte) (pos : Z) : list byte := skipn (Z.to_nat pos) file.
(* std Seek of a file: a negative position, or one from 2^63 on, is an error *)
Definition seek_to (pos : Z) : res Z := if (0 <=? pos) && (pos <? 2 ^ 63) then Ok pos else Err.
(* section_size as i64 *)
Definition as_i64 (v : Z) : Z := if v <? 2 ^ 63 then v else v - 2 ^ 64.

(* r1cs_file.rs:208-215 the section table; the reader stops at the first error, and each iteration
   reads twelve bytes of the file but may seek backwards, so the fuel is the number of sections *)
Fixpoint read_table (fuel : nat) (file : list byte) (pos : Z) (m : sections) : res sections :=
  match fuel with
  | O => Ok m
  | S fuel =>
      do (t, l) <- read_u32 (at_pos file pos);
      do (sz, _) <- read_u64 l;
      do p <- seek_to (pos + 12 + as_i64 sz);
      read_table fuel file p (sec_insert t (pos + 12, sz) m)
  end.

(* E::Fr::NUM_BITS.div_ceil(8) *)
Variable field_bytes : Z.

Definition bytes_eqb (a b : list byte) : bool :=
  (length a =? length b)%nat && forallb (fun p => fst p =? snd p) (combine a b).

(* r1cs_file.rs:228-243 *)
Definition check_header (h : Header) : bool :=
  ((field_size h =? 32) || (field_size h =? 8)) && (field_size h =? field_bytes)
  && (bytes_eqb (prime_size h) (le_bytes 32 bn_prime)
      || bytes_eqb (prime_size h) (le_bytes 32 bls_prime)
      || bytes_eqb (prime_size h) (le_bytes 8 gl_prime)).

(* r1cs_file.rs:185-270 *)
Definition from_reader (file : list byte) : res R1CSFile :=
  do (magic, l) <- read_exact 4 file;
  if negb (bytes_eqb magic [0x72; 0x31; 0x63; 0x73]) then Err else
  do (version, l) <- read_u32 l;
  if negb (version =? 1) then Err else
  do (num_sections, _) <- read_u32 l;
  do m <- read_table (Z.to_nat num_sections) file 12 [];
  do (off, size) <- sec_unwrap HEADER_TYPE m;
  do (h, _) <- read_header size (at_pos file off);
  let h := mkHeader (field_size h) (prime_size h) (n_wires h) (n_pub_out h) (n_pub_in h) (n_prv_in h)
             (n_labels h) (n_constraints h) (sec_has CUSTOM_GATES_USE m && sec_has CUSTOM_GATES_LIST m) in
  if negb (check_header h) then Err else
  do (off, _) <- sec_unwrap CONSTRAINT_TYPE m;
  do (cs, _) <- read_constraints h (at_pos file off);
  do (off, size) <- sec_unwrap WIRE2LABEL_TYPE m;
  do (wm, _) <- read_map size h (at_pos file off);
  do gates <- match sec_get CUSTOM_GATES_LIST m with
              | Some (off, _) => do (g, _) <- read_custom_gates_list (at_pos file off); Ok g
              | None => Ok []
              end;
  do uses <- match sec_get CUSTOM_GATES_USE m with
             | Some (off, size) => read_custom_gates_uses_list size (at_pos file off)
             | None => Ok []
             end;
  Ok (mkFile version h cs wm gates uses).

(* circom_circuit.rs:49-57 *)
Record R1CSc := mkC {
  c_num_inputs : Z; c_num_aux : Z; c_num_variables : Z; c_num_outputs : Z;
  c_constraints : list cst; c_custom_gates : list CustomGates; c_custom_gates_uses : list CustomGatesUses }.
(* reader.rs:198-215; expect makes every error a panic; the usize subtraction *)
Definition load_r1cs_from_bin (oc : bool) (file : list byte) : res (R1CSc * list Z) :=
  do f <- match from_reader file with Err => Panic | r => r end;
  let h := f_header f in
  do s <- add32 oc 1 (n_pub_in h);
  do num_inputs <- add32 oc s (n_pub_out h);
  do num_aux <- if num_inputs <=? n_wires h then Ok (n_wires h - num_inputs)
                else if oc then Panic else Ok (n_wires h - num_inputs + 2 ^ 64);
  Ok (mkC num_inputs num_aux (n_wires h) (n_pub_out h) (f_constraints f) (f_custom_gates f)
        (f_custom_gates_uses f), f_wire_mapping f).
End Field.
