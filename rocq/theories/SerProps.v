(* Files and texts: digests, extension elements, proofs, joined inputs, tables of values. *)
From Coq Require Import String Ascii.
From Verif Require Import Base GlModel FrField F3gModel F3gProof HashModel BnModel SerModel SerProof JoinProof ProofSer ProofSerMore PolsModel PolsProof.
Open Scope Z_scope.
Open Scope res_scope.

(** * C28 *)
(* An extension element written and read back is the same one, dimension included. *)
Theorem C28_f3g_roundtrip : forall a, wf a -> de_f3g (ser_f3g a) = Ok a.
Proof. exact f3g_roundtrip. Qed.
Print Assumptions C28_f3g_roundtrip.

(* Different extension elements are written differently. *)
Theorem C28_f3g_distinct : forall a b, wf a -> wf b -> ser_f3g a = ser_f3g b -> a = b.
Proof. exact f3g_encoding_inj. Qed.
Print Assumptions C28_f3g_distinct.
Example C28_nonvacuous_f3g : ser_f3g (e_from (fof 12)) = JStr [49; 50] /\ wf (e_new (fof 12) f0 f0) /\
  ser_f3g (e_new (fof 12) f0 f0) = JArr [JStr [49; 50]; JStr [48]; JStr [48]].
Proof. split; [vm_compute; reflexivity|]. split; [intros E; discriminate E|vm_compute; reflexivity]. Qed.

(* A Goldilocks digest of any four elements comes back. *)
Theorem C28_goldilocks : forall d, length d = 4%nat -> de_digest GL (ser_digest GL d) = Ok d.
Proof. exact gl_digest_roundtrip. Qed.
Print Assumptions C28_goldilocks.
Example C28_nonvacuous_goldilocks : ser_digest GL [fof 3; f0; f0; f0] = JStr [51] /\
  ser_digest GL [fof 3; f0; f1; f0] = JArr [JStr [51]; JStr [48]; JStr [49]; JStr [48]].
Proof. split; vm_compute; reflexivity. Qed.

(* In the two large fields a digest comes back reduced by the modulus: unchanged if it was below it. *)
Theorem C28_digest_partial : forall k d, canonical k d -> de_digest k (ser_digest k d) = Ok d.
Proof. exact digest_roundtrip. Qed.
Print Assumptions C28_digest_partial.
Theorem C28_large_back : forall k d, k <> GL -> de_digest k (ser_digest k d) = from_scalar (as_scalar d mod kq k).
Proof. exact q_digest_back. Qed.
Print Assumptions C28_large_back.
Theorem C28_distinct_partial : forall k a b, canonical k a -> canonical k b -> ser_digest k a = ser_digest k b -> a = b.
Proof. exact digest_encoding_inj. Qed.
Print Assumptions C28_distinct_partial.
(* Every digest made from a field element is of that form. *)
Theorem C28_made : forall k v d, k <> GL -> 0 <= v < kq k -> from_scalar v = Ok d -> canonical k d.
Proof. exact from_scalar_canonical. Qed.
Print Assumptions C28_made.
Example C28_nonvacuous_large : canonical BLS [fof 5; fof 6; fof 7; fof 8] /\
  rmap (map fint) (de_digest BLS (ser_digest BLS [fof 5; fof 6; fof 7; fof 8])) = Ok [5; 6; 7; 8] /\
  rmap (map fint) (from_scalar (bn_q - 1)) = Ok [4891460686036598784; 2896914383306846353; 13281191951274694749; 3486998266802970665].
Proof. split; [split; [reflexivity|intros _; vm_compute; reflexivity]|]. split; vm_compute; reflexivity. Qed.

(* A BN128 digest holding the modulus is written like the zero digest, and read back as it. *)
Theorem C28_alias_refuted : exists a b : digest, length a = 4%nat /\ length b = 4%nat /\ b <> a /\
  ser_digest BN b = ser_digest BN a /\ de_digest BN (ser_digest BN b) = Ok a.
Proof. exact (ex_intro _ alias_a (ex_intro _ alias_b (conj eq_refl (conj (proj1 alias_same) (conj alias_diff (proj2 alias_same)))))). Qed.
Print Assumptions C28_alias_refuted.

(** * C29 *)
(* A table saved and loaded into a table of the same shape is the same table, for any table as long as the
   reads of the file do not split a word. *)
Theorem C29_roundtrip_partial : forall rd t u, aligned rd -> exact_table t -> exact_table u -> nPols u = nPols t -> p_n u = p_n t ->
  bind (save t) (load rd u) = Ok t.
Proof. exact load_save_exact. Qed.
Print Assumptions C29_roundtrip_partial.

(* With longer columns the rows that are announced are replaced and the others stay. *)
Theorem C29_cells_partial : forall rd t u file, aligned rd -> shaped t -> shaped u -> nPols u = nPols t -> p_n u = p_n t -> save t = Ok file ->
  exists u', load rd u file = Ok u' /\ nPols u' = nPols t /\ p_n u' = p_n t /\
    map (@length Fr) (p_array u') = map (@length Fr) (p_array u) /\
    forall j i, (j < nPols t)%nat -> cellv (p_array u') j i = if (i <? p_n t)%nat then cellv (p_array t) j i else cellv (p_array u) j i.
Proof. exact load_save. Qed.
Print Assumptions C29_cells_partial.

(* The file and the buffer for the prover hold the values row by row. *)
Theorem C29_layout : forall t, shaped t -> (0 < nPols t)%nat -> exists tail,
  save t = Ok (word_bytes (map fint (rowmajor (nPols t) (p_n t) (p_array t))) ++ tail) /\
  write_buff t = Ok (map e_from (rowmajor (nPols t) (p_n t) (p_array t))).
Proof.
  exact (fun t S H => match save_spec t S with ex_intro _ tail E => ex_intro _ tail (conj E (write_buff_spec t S H)) end).
Qed.
Print Assumptions C29_layout.

(* A file that is too short is never taken for a table, whatever the reads. *)
Theorem C29_short : forall rd t file, (length file < 8 * totalSize t)%nat -> forall u, load rd t file <> Ok u.
Proof. exact load_short. Qed.
Print Assumptions C29_short.
Example C29_nonvacuous :
  let t := mkPols 2 3 [[fof 1; fof 2; fof 3]; [fof 4; fof 5; fof 6]] in
  let u := mkPols 2 3 [[f0; f0; f0]; [f0; f0; f0]] in
  exact_table t /\ exact_table u /\ aligned (fun _ => 8%nat) /\
  rmap (fun u => map (map fint) (p_array u)) (bind (save t) (load (fun _ => 8%nat) u)) = Ok [[1; 2; 3]; [4; 5; 6]] /\
  rmap (@length Z) (save t) = Ok 48%nat /\ map fint (rowmajor 2 3 (p_array t)) = [1; 4; 2; 5; 3; 6].
Proof.
  cbv zeta. split; [split; [reflexivity|repeat constructor]|]. split; [split; [reflexivity|repeat constructor]|].
  split; [intros s; split; [apply le_n|reflexivity]|]. split; [vm_compute; reflexivity|]. split; vm_compute; reflexivity.
Qed.

(* Instead of an error the call never returns. *)
Theorem C29_short_refuted : forall rd t (vals : list Fr), aligned rd -> shaped t -> (length vals < totalSize t)%nat ->
  load rd t (word_bytes (map fint vals)) = Hang.
Proof. exact load_short_hangs. Qed.
Print Assumptions C29_short_refuted.

(* A read that hands out nine of sixteen bytes loses one. *)
Theorem C29_split_refuted : exists rd t, exact_table t /\ (forall s, (8 <= rd s)%nat) /\ bind (save t) (load rd t) = Hang.
Proof.
  exact (ex_intro _ split_rd (ex_intro _ split_t (conj (conj eq_refl (Forall_cons [fof 1; fof 2] eq_refl (Forall_nil _)))
    (conj (fun s => match s return (8 <= split_rd s)%nat with O => le_S 8 8 (le_n 8) | S _ => le_n 8 end) (proj1 split_reads))))).
Qed.
Print Assumptions C29_split_refuted.

(** * C43 *)
(* Everything in the joined input: the entries of the first under a_, of the second under b_, the public
   inputs of the first without the last four, its rootC, and nothing else. *)
Theorem C43_join : forall z1 z2, is_map z1 -> is_map z2 ->
  (forall n, kv_get (join_zkin z1 z2) (str "a_" ++ n) = kv_get z1 n) /\
  (forall n, kv_get (join_zkin z1 z2) (str "b_" ++ n) = kv_get z2 n) /\
  kv_get (join_zkin z1 z2) (str "publics") = handed_on (kv_get z1 (str "publics")) /\
  kv_get (join_zkin z1 z2) (str "rootC") = kv_get z1 (str "rootC") /\
  (forall key, (forall n, key <> str "a_" ++ n) -> (forall n, key <> str "b_" ++ n) ->
     key <> str "publics" -> key <> str "rootC" -> kv_get (join_zkin z1 z2) key = None).
Proof. exact join_spec. Qed.
Print Assumptions C43_join.

(* It determines both inputs. *)
Theorem C43_determines : forall z1 z2 y1 y2, is_map z1 -> is_map z2 -> is_map y1 -> is_map y2 ->
  (forall key, kv_get (join_zkin z1 z2) key = kv_get (join_zkin y1 y2) key) ->
  (forall n v, In (n, v) z1 <-> In (n, v) y1) /\ (forall n v, In (n, v) z2 <-> In (n, v) y2).
Proof. exact join_determines. Qed.
Print Assumptions C43_determines.

(* No name occurs twice in it. *)
Theorem C43_no_duplicates : forall z1 z2, is_map (join_zkin z1 z2).
Proof. exact join_is_map. Qed.
Print Assumptions C43_no_duplicates.
Example C43_nonvacuous :
  let pub l := (str "publics", JArr (map (fun n => JStr (dec n)) l)) in
  let z1 := [(str "rootC", JStr [49]); pub [1; 2; 3; 4; 5; 6]; (str "b_evals", JStr [50])] in
  let z2 := [pub [7; 8; 9; 10; 11]; (str "evals", JStr [51])] in
  is_map z1 /\ is_map z2 /\ length (join_zkin z1 z2) = 7%nat /\
  kv_get (join_zkin z1 z2) (str "publics") = Some (JArr [JStr [49]; JStr [50]]) /\
  kv_get (join_zkin z1 z2) (str "b_evals") = Some (JStr [51]) /\
  kv_get (join_zkin z1 z2) (str "a_b_evals") = Some (JStr [50]).
Proof.
  cbv zeta. split; [|split; [|split; [|split; [|split]]]]; try (vm_compute; reflexivity);
    unfold is_map; cbn [map fst]; repeat constructor; cbn; intuition discriminate.
Qed.

(** * C64 *)
(* A proof written and read back is the same proof: any number of queries, at most 31 further steps. *)
Theorem C64_roundtrip_partial : forall (MB : Type) to_bf of_bf k (p : proof MB), proof_ok MB to_bf of_bf k p ->
  (length (queries MB p) <= 32)%nat -> (k = GL -> prover_addr MB p = []) ->
  bind (ser_proof MB of_bf k p) (de_proof MB to_bf k) = Ok p.
Proof. exact proof_roundtrip. Qed.
Print Assumptions C64_roundtrip_partial.

(* So different proofs are written differently. *)
Theorem C64_distinct_partial : forall (MB : Type) to_bf of_bf k (p p' : proof MB), proof_ok MB to_bf of_bf k p -> proof_ok MB to_bf of_bf k p' ->
  (length (queries MB p) <= 32)%nat -> (length (queries MB p') <= 32)%nat ->
  (k = GL -> prover_addr MB p = [] /\ prover_addr MB p' = []) -> ser_proof MB of_bf k p = ser_proof MB of_bf k p' -> p = p'.
Proof. exact proof_distinct. Qed.
Print Assumptions C64_distinct_partial.

(* The openings of a Goldilocks tree can always be written, those of the other trees when the nodes of the
   tree can. *)
Theorem C64_openings : (forall e, cell_ok Fr gl_to_bf gl_of_bf GL e) /\
  (forall k d, k <> GL -> canonical k d -> bf_ok Z q_to_bf q_of_bf k (as_scalar d)).
Proof. exact (conj gl_cells q_node). Qed.
Print Assumptions C64_openings.
Example C64_nonvacuous : proof_ok Fr gl_to_bf gl_of_bf GL (ex_proof [ex_q1; ex_q1] []) /\
  rmap (fun j => match j with JObj m => length m | _ => O end) (ser_proof Fr gl_of_bf GL (ex_proof [ex_q1; ex_q1] [])) = Ok 24%nat.
Proof. split; [exact (ex_ok 2 [])|vm_compute; reflexivity]. Qed.
(* a BN128 node *)
Example C64_nonvacuous_bn : canonical BN (ex_node 3) /\ bf_ok Z q_to_bf q_of_bf BN (as_scalar (ex_node 3)).
Proof. split; [|apply q_node; [discriminate|]]; split; try reflexivity; intros _; vm_compute; reflexivity. Qed.

(* A proof with more steps loses those after the 31st without an error. *)
Theorem C64_steps_refuted : forall (MB : Type) to_bf of_bf k (p : proof MB), proof_ok MB to_bf of_bf k p -> (32 < length (queries MB p))%nat ->
  exists p', bind (ser_proof MB of_bf k p) (de_proof MB to_bf k) = Ok p' /\ queries MB p' = firstn 32 (queries MB p) /\ p' <> p.
Proof. exact proof_truncated. Qed.
Print Assumptions C64_steps_refuted.
Example C64_nonvacuous_steps : proof_ok Fr gl_to_bf gl_of_bf GL (ex_proof (repeat ex_q1 32) []) /\
  length (queries Fr (ex_proof (repeat ex_q1 32) [])) = 33%nat.
Proof. split; [exact (ex_ok 32 [])|reflexivity]. Qed.

(* A Goldilocks proof loses the address of the prover. *)
Theorem C64_address_refuted : forall p : proof Fr, proof_ok Fr gl_to_bf gl_of_bf GL p -> prover_addr Fr p <> [] ->
  exists p', bind (ser_proof Fr gl_of_bf GL p) (de_proof Fr gl_to_bf GL) = Ok p' /\ prover_addr Fr p' = [] /\ p' <> p.
Proof. exact proof_address. Qed.
Print Assumptions C64_address_refuted.
Example C64_nonvacuous_address : proof_ok Fr gl_to_bf gl_of_bf GL (ex_proof [] [48; 120; 49]).
Proof. exact (ex_ok 0 [48; 120; 49]). Qed.

(* Writing a proof without any step panics. *)
Theorem C64_no_steps : forall (MB : Type) of_bf k (p : proof MB), queries MB p = [] -> ser_proof MB of_bf k p = Panic.
Proof. exact proof_no_steps. Qed.
Print Assumptions C64_no_steps.

(* A text without the values of the second to fifth tree of the first step is read as the proof whose
   openings of that tree are all empty; the other parts are as before. *)
Theorem C64_missing_tree : forall (MB : Type) to_bf k m c j p, (1 <= c)%nat -> nth_error tree_names c = Some j ->
  de_proof MB to_bf k (JObj m) = Ok p -> de_proof MB to_bf k (JObj (without (str "s0_vals" ++ str j) m)) = Ok (blanked c p).
Proof. exact missing_tree. Qed.
Print Assumptions C64_missing_tree.
Example C64_nonvacuous_missing : exists m, de_proof Fr gl_to_bf GL (JObj m) = Ok (ex_proof [ex_q1] []) /\
  blanked 2 (ex_proof [ex_q1] []) <> ex_proof [ex_q1] [].
Proof. exact ex_missing. Qed.
