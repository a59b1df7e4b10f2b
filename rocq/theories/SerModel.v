(* Model of the JSON form of digests, extension elements and proofs (starky/src/digest.rs,
   starky/src/serializer.rs) and of starky/src/zkin_join.rs.
   A text is the list of its bytes. serde_json itself is not modelled: a file is the value tree it
   stands for, which printing and parsing by serde_json preserve. Numbers, booleans and null as JSON
   values do not occur in what is written and are left out. *)
From Coq Require Import String Ascii.
From Verif Require Import Base GlModel FrField F3gModel HashModel BnModel.
Open Scope Z_scope.
Open Scope res_scope.

Notation text := (list Z) (only parsing).

(* serde_json::Value *)
Inductive json : Type :=
| JStr (s : text)
| JArr (l : list json)
| JObj (m : list (text * json)).

(* a text constant *)
Definition str (s : string) : text := map (fun a => Z.of_nat (nat_of_ascii a)) (list_ascii_of_string s).

(* to_string of an unsigned number (std and num-bigint); [fuel] is its bit length *)
Fixpoint dec_loop (fuel : nat) (n : Z) (acc : text) : text :=
  match fuel with
  | O => acc
  | S fu => let acc := (48 + n mod 10) :: acc in
            if n <? 10 then acc else dec_loop fu (n / 10) acc
  end.
Definition dec (n : Z) : text := dec_loop (S (Z.to_nat (Z.log2 n))) n [].

(* char::to_digit(10) *)
Definition digit10 (c : Z) : option Z := if (48 <=? c) && (c <=? 57) then Some (c - 48) else None.

(* str::parse::<u64>() (core::num): a leading plus is dropped; overflow is an error. All callers
   unwrap the result. *)
Fixpoint u64_digits (acc : Z) (s : text) : res Z :=
  match s with
  | [] => Ok acc
  | c :: r => match digit10 c with
              | Some d => if acc * 10 + d <? 2 ^ 64 then u64_digits (acc * 10 + d) r else Err
              | None => Err
              end
  end.
Definition parse_u64 (s : text) : res Z :=
  match s with
  | [] => Err
  | c :: r => if c =? 43 then match r with [] => Err | _ => u64_digits 0 r end else u64_digits 0 s
  end.

(* ff: PrimeField::from_str, given the zero and "times ten plus a digit" of the field *)
Fixpoint ff_digits {A} (step : A -> Z -> A) (acc : A) (s : text) : res A :=
  match s with
  | [] => Ok acc
  | c :: r => match digit10 c with Some d => ff_digits step (step acc d) r | None => Err end
  end.
Definition ff_from_str {A} (zero : A) (step : A -> Z -> A) (s : text) : res A :=
  match s with
  | [] => Err
  | c :: r => if c =? 48 then match r with [] => Ok zero | _ => Err end else ff_digits step zero s
  end.
Definition fr_from_str (s : text) : res Fr := ff_from_str f0 (fun a d => fadd (fmul a (fof 10)) (fof d)) s.
Definition q_from_str (q rinv : Z) (s : text) : res Z :=
  ff_from_str 0 (fun a d => q_add q (q_mul q rinv a (10 * R256 mod q)) (d * R256 mod q)) s.

(* serde: a sequence of T read into a Vec<T> *)
Definition de_vec {A} (de : json -> res A) (j : json) : res (list A) :=
  match j with JArr l => mapM de l | _ => Err end.
Definition de_string (j : json) : res text := match j with JStr s => Ok s | _ => Err end.

(** * extension elements *)
(* serializer.rs:21-39; a third dimension does not exist in the model of F3G *)
Definition ser_f3g (a : F3G) : json :=
  if d3 a then JArr (map (fun v => JStr (dec (fint v))) (e_as_elements a))
  else JStr (dec (fint (c0 a))).

(* one entry of the sequences read at serializer.rs:58-61 and digest.rs:133-136 *)
Definition de_word (j : json) : res Fr :=
  do s <- de_string j;
  do v <- unwrap (parse_u64 s);
  fr_from v.

(* serializer.rs:41-77 *)
Definition de_f3g (j : json) : res F3G :=
  match j with
  | JArr l => do es <- mapM de_word l; e_from_vec es
  | JStr s => do v <- unwrap (parse_u64 s); do x <- fr_from v; Ok (e_from x)
  | JObj _ => Err
  end.

(** * digests *)
(* the field a digest belongs to: TypeId::of::<F>() *)
Inductive kind : Type := GL | BN | BLS.
Definition kq (k : kind) : Z := match k with GL => MODULUS | BN => bn_q | BLS => bls_q end.
Definition krinv (k : kind) : Z := match k with GL => 0 | BN => bn_rinv | BLS => bls_rinv end.

(* digest.rs:33-38, N is four everywhere *)
Definition digest_new (v : list Fr) : res digest := if (4 <=? length v)%nat then Ok (firstn 4 v) else Panic.

(* digest.rs:24-27 *)
Definition is_dim_1 (d : digest) : bool :=
  let e i := nth i d f0 in
  feqb (e 1%nat) (e 2%nat) && feqb (e 1%nat) (e 3%nat) && feqb (e 1%nat) f0.

(* digest.rs:84-112; helper::fr_to_biguint (helper.rs:52-58) is the value of the element *)
Definition ser_digest (k : kind) (d : digest) : json :=
  match k with
  | GL => if is_dim_1 d then JStr (dec (fint (nth 0 d f0)))
          else JArr (map (fun v => JStr (dec (fint v))) d)
  | _ => JStr (dec (q_value (kq k) (krinv k) (as_scalar d)))
  end.

(* digest.rs:114-159 *)
Definition de_digest (k : kind) (j : json) : res digest :=
  match j with
  | JArr l => do es <- mapM de_word l; digest_new es
  | JStr s =>
      match k with
      | GL => do v <- unwrap (fr_from_str s); digest_new [v; f0; f0; f0]
      | _ => do t <- unwrap (q_from_str (kq k) (krinv k) s); from_scalar t
      end
  | JObj _ => Err
  end.

(** * proofs *)
(* The base field of the tree, with the conversions of a node (merklehash.rs:278-284,
   merklehash_bn128.rs:168-174, merklehash_bls12381.rs:168-174). For the two large fields an element is
   the number in its limbs. *)
Definition gl_to_bf (d : digest) : Fr := nth 0 d f0.
Definition gl_of_bf (e : Fr) : res digest := digest_new [e; f0; f0; f0].
Definition q_to_bf (d : digest) : Z := as_scalar d.
Definition q_of_bf (e : Z) : res digest := from_scalar e.

Section Proof.
Variable MB : Type.
Variable to_bf : digest -> MB.
Variable of_bf : MB -> res digest.
Variable k : kind.

(* starky/src/fri.rs:22-26 *)
Record query : Type := mkQ { pol_queries : list (list (list Fr * list (list MB))); q_root : digest }.
(* starky/src/stark_gen.rs:178-189, with the FRI proof (fri.rs:59-62) in place *)
Record proof : Type := mkP {
  root1 : digest; root2 : digest; root3 : digest; root4 : digest;
  queries : list query; last_pol : list F3G;
  evals : list F3G; publics : list F3G;
  rootC : option digest; prover_addr : text }.

(* serializer.rs:162, 182: the values of a row as extension elements *)
Definition ser_vals (v : list Fr) : json := JArr (map (fun e => ser_f3g (e_from e)) v).
(* serializer.rs:163-171, 183-189 *)
Definition ser_sibs (s : list (list MB)) : res json :=
  rmap JArr (mapM (fun e => rmap JArr (mapM (fun ee => rmap (ser_digest k) (of_bf ee)) e)) s).
(* serializer.rs:159-172 for column c of every opened row *)
Definition ser_col (nq c : nat) (q : query) : res (json * json) :=
  do rows <- mapM (fun i => do qe <- vget (pol_queries q) i; do e <- vget qe c;
                            do s <- ser_sibs (snd e); Ok (ser_vals (fst e), s)) (seq 0 nq);
  Ok (JArr (map fst rows), JArr (map snd rows)).

(* format!("s{i}_root") and the like *)
Definition key_s (i : nat) (suffix : string) : text := str "s" ++ dec (Z.of_nat i) ++ str suffix.

(* serializer.rs:155-177 *)
Definition ser_step (nq : nat) (qs : list query) (i : nat) : res (list (text * json)) :=
  do q <- vget qs i;
  do c <- ser_col nq 0 q;
  Ok [(key_s i "_root", ser_digest k (q_root q)); (key_s i "_vals", fst c); (key_s i "_siblings", snd c)].

(* an entry left out when there are no rows, serializer.rs:237-242, 246-251 *)
Definition when (b : bool) (e : text * json) : list (text * json) := if b then [e] else [].

(* serializer.rs:137-265. queries.len() - 1 panics for no queries, and so does queries[0] when overflow
   is not checked. *)
Definition ser_proof (p : proof) : res json :=
  do q0 <- vget (queries p) 0;
  let nq := length (pol_queries q0) in
  do steps <- mapM (ser_step nq (queries p)) (seq 1 (length (queries p) - 1));
  do c1 <- ser_col nq 0 q0; do c2 <- ser_col nq 1 q0; do c3 <- ser_col nq 2 q0;
  do c4 <- ser_col nq 3 q0; do cC <- ser_col nq 4 q0;
  let some := negb (nq =? 0)%nat in
  Ok (JObj (
    match rootC p with Some r => [(str "rootC", ser_digest k r)] | None => [] end ++
    [(str "root1", ser_digest k (root1 p)); (str "root2", ser_digest k (root2 p));
     (str "root3", ser_digest k (root3 p)); (str "root4", ser_digest k (root4 p));
     (str "evals", JArr (map ser_f3g (evals p)))] ++
    concat steps ++
    [(str "s0_vals1", fst c1)] ++ when some (str "s0_vals2", fst c2) ++ when some (str "s0_vals3", fst c3) ++
    [(str "s0_vals4", fst c4); (str "s0_valsC", fst cC); (str "s0_siblings1", snd c1)] ++
    when some (str "s0_siblings2", snd c2) ++ when some (str "s0_siblings3", snd c3) ++
    [(str "s0_siblings4", snd c4); (str "s0_siblingsC", snd cC);
     (str "finalPol", JArr (map ser_f3g (last_pol p))); (str "publics", JArr (map ser_f3g (publics p)))] ++
    match k with GL => [] | _ => [(str "proverAddr", JStr (prover_addr p))] end)).

(* equality of texts *)
Fixpoint text_eqb (a b : text) : bool :=
  match a, b with
  | [], [] => true
  | x :: a, y :: b => (x =? y) && text_eqb a b
  | _, _ => false
  end.
(* a HashMap filled entry by entry: the last entry of a name counts *)
Fixpoint jget (m : list (text * json)) (key : text) : option json :=
  match m with
  | [] => None
  | (n, v) :: r => match jget r key with
                   | Some x => Some x
                   | None => if text_eqb n key then Some v else None
                   end
  end.
(* map.get(key).unwrap() *)
Definition jneed (m : list (text * json)) (key : text) : res json :=
  match jget m key with Some v => Ok v | None => Panic end.
(* serde_json::from_value(map.get(key).unwrap().clone()).unwrap() *)
Definition field {A} (m : list (text * json)) (key : text) (de : json -> res A) : res A :=
  do j <- jneed m key; unwrap (de j).

(* serializer.rs:342-354, 413-424: ea[0] of every value *)
Definition de_vals (j : json) : res (list (list Fr)) :=
  rmap (map (map c0)) (de_vec (de_vec de_f3g) j).
(* Vec<Vec<Vec<MTNode>>> *)
Definition de_sibs (j : json) : res (list (list (list digest))) := de_vec (de_vec (de_vec (de_digest k))) j.
(* traits.rs:129-140 mt_node_to_basefield *)
Definition nodes_to_bf (s : list (list digest)) : list (list MB) := map (map to_bf) s.

(* serializer.rs:314-324 *)
Definition num_query (m : list (text * json)) : nat :=
  fold_left Nat.max (map (fun i => match jget m (key_s i "_root") with Some _ => i | None => O end) (seq 1 31)) O.

(* serializer.rs:333-362, one of the five trees *)
Definition de_s0 (m : list (text * json)) (j : string) : res (list (list Fr) * list (list (list digest))) :=
  match jget m (str "s0_vals" ++ str j) with
  | None => Ok ([], [])
  | Some v => do vals <- unwrap (de_vals v);
              do sibs <- field m (str "s0_siblings" ++ str j) de_sibs;
              Ok (vals, sibs)
  end.

(* Vec::resize_with(n, Vec::new) *)
Definition resize {A} (n : nat) (l : list (list A)) : list (list A) := firstn n l ++ repeat [] (n - length l).

(* serializer.rs:383-401: a tree with fewer rows than the first is filled up *)
Definition fill (nq : nat) (t : list (list Fr) * list (list (list digest))) :=
  if (length (fst t) <? nq)%nat then (resize nq (fst t), resize nq (snd t)) else t.
Definition row_of (t : list (list Fr) * list (list (list digest))) (i : nat) : res (list Fr * list (list MB)) :=
  do s <- vget (snd t) i; do v <- vget (fst t) i; Ok (v, nodes_to_bf s).

(* serializer.rs:405-434 *)
Definition de_step (m : list (text * json)) (nq i : nat) : res query :=
  do root <- field m (key_s i "_root") (de_digest k);
  do vals <- field m (key_s i "_vals") de_vals;
  do sibs <- field m (key_s i "_siblings") de_sibs;
  do rows <- mapM (fun q => do r <- row_of (vals, sibs) q; Ok [r]) (seq 0 nq);
  Ok (mkQ rows root).

(* serializer.rs:267-450 *)
Definition de_proof (j : json) : res proof :=
  match j with
  | JObj m =>
      do r1 <- field m (str "root1") (de_digest k); do r2 <- field m (str "root2") (de_digest k);
      do r3 <- field m (str "root3") (de_digest k); do r4 <- field m (str "root4") (de_digest k);
      do rC <- match jget m (str "rootC") with
               | Some v => rmap Some (unwrap (de_digest k v)) | None => Ok None end;
      do addr <- match jget m (str "proverAddr") with Some v => unwrap (de_string v) | None => Ok [] end;
      do ev <- field m (str "evals") (de_vec de_f3g);
      do pu <- field m (str "publics") (de_vec de_f3g);
      let n := num_query m in
      do trees <- mapM (de_s0 m) ["1"; "2"; "3"; "4"; "C"]%string;
      do t0 <- vget trees 0;
      let nq := length (fst t0) in
      do rows0 <- mapM (fun i => mapM (fun t => row_of (fill nq t) i) trees) (seq 0 nq);
      do steps <- mapM (de_step m nq) (seq 1 n);
      do last <- field m (str "finalPol") (de_vec de_f3g);
      Ok (mkP r1 r2 r3 r4 (mkQ rows0 zero4 :: steps) last ev pu rC addr)
  | _ => Err
  end.
End Proof.

(** * joining two proof inputs *)
(* A BTreeMap from names to values, given by its entries; insert replaces an entry of the same name.
   The order in which serde_json writes the entries is left out. *)
Definition kv_get {V} (m : list (text * V)) (key : text) : option V :=
  match find (fun e => text_eqb (fst e) key) m with Some e => Some (snd e) | None => None end.
Definition kv_put {V} (m : list (text * V)) (key : text) (v : V) : list (text * V) :=
  (key, v) :: filter (fun e => negb (text_eqb (fst e) key)) m.

(* zkin_join.rs:25-42, one entry of the first input *)
Definition join_step1 (out : list (text * json)) (e : text * json) : list (text * json) :=
  let (n, v) := e in
  let out := kv_put out (str "a_" ++ n) v in
  let out := if text_eqb n (str "publics") then
               match v with
               | JArr arr => if (4 <=? length arr)%nat
                             then kv_put out (str "publics") (JArr (firstn (length arr - 4) arr))
                             else kv_put out (str "publics") v
               | _ => out
               end
             else out in
  if text_eqb n (str "rootC") then kv_put out n v else out.
(* zkin_join.rs:43-45 *)
Definition join_step2 (out : list (text * json)) (e : text * json) : list (text * json) :=
  kv_put out (str "b_" ++ fst e) (snd e).
(* zkin_join.rs:9-53 *)
Definition join_zkin (zkin1 zkin2 : list (text * json)) : list (text * json) :=
  fold_left join_step2 zkin2 (fold_left join_step1 zkin1 []).
