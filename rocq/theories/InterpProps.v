(* C47, C53, C54: PIL numbers, addressing, interpreter blocks.
   [read_ref si d i m r] is the value of reference r at row i of domain d in memory m and
   [direct_step si d i] executes one instruction on the memory; both are defined in InterpProof without
   blocks and stacks. [get_row p l k] is row k of the column with offset, width and dimension p. *)
From Verif Require Import Base GlModel FrField F3gModel ListAux ProverModel CodegenModel InterpModel InterpProof PilNumModel PilNumProof.
Open Scope nat_scope.
Open Scope res_scope.

(* C47: exactly the literals that fit an i128 are accepted, and from -p on the result is the residue *)
Theorem C47_accepts : forall s u, parse_pil_number s = Ok u <->
  exists k, literal s k /\ i128_ok k = true /\ u = pil_number k.
Proof. exact parse_spec. Qed.
Print Assumptions C47_accepts.

Theorem C47_residue : forall s u, parse_pil_number s = Ok u -> exists k, literal s k /\ (- GLP <= k -> u = k mod GLP)%Z.
Proof. exact parse_residue. Qed.
Print Assumptions C47_residue.

Theorem C47_one_reading : forall s k k', literal s k -> literal s k' -> k = k'.
Proof. exact literal_fun. Qed.
Print Assumptions C47_one_reading.

(* -2p+1 is read as 2^32 *)
Theorem C47_below_minus_p_refuted : exists s k, literal s k /\ i128_ok k = true /\ parse_pil_number s = Ok (2 ^ 32)%Z /\ (k mod GLP = 1)%Z.
Proof. exact parse_wrong. Qed.
Print Assumptions C47_below_minus_p_refuted.

(* "-5", "0xFf", "+7"; "12a" and "" are refused *)
Example C47_nonvacuous :
  map parse_pil_number [[45; 53]; [48; 120; 70; 102]; [43; 55]; [49; 50; 97]; []]%Z = [Ok (GLP - 5)%Z; Ok 255%Z; Ok 7%Z; Panic; Panic].
Proof. vm_compute. reflexivity. Qed.

(* C53: a committed column is read at row i, or i plus the shift, modulo the domain size *)
Theorem C53_column_row : forall si (d : dom) i m r pid (s : sec) pos dim, n_ty r = Ncm ->
  nth_error (if d then si_cm_n si else si_cm_2ns si) (n_id r) = Some pid -> nth_error (si_map si) pid = Some (s, pos, dim) -> dim = 1 \/ dim = 3 ->
  read_ref si d i m r = get_row (mkPol (dom_size si d) pos (si_width si s) dim) (m_sec m s) (col_row si d i (n_prime r)).
Proof. exact read_cm. Qed.
Print Assumptions C53_column_row.

Theorem C53_const_row : forall si (d : dom) i m r, n_ty r = Nconst ->
  read_ref si d i m r = vget (m_sec m (if d then Sconst_n else Sconst_2ns)) (n_id r + col_row si d i (n_prime r) * si_nconst si).
Proof. exact read_const. Qed.
Print Assumptions C53_const_row.

Theorem C53_row_number : forall si d i prime,
  col_row si d i prime = (i + (if prime then (if d then 1 else 2 ^ (si_nbits_ext si - si_nbits si)) else 0)) mod 2 ^ (if d then si_nbits si else si_nbits_ext si).
Proof. exact col_row_val. Qed.
Print Assumptions C53_row_number.

Theorem C53_inside_section : forall w pos dim r n, pos + dim <= w -> r < n ->
  r * w <= pos + r * w /\ pos + r * w + dim <= (r + 1) * w /\ (r + 1) * w <= n * w.
Proof. exact addr_inside. Qed.
Print Assumptions C53_inside_section.

(* writing a value changes exactly the cells of that column in that row *)
Theorem C53_write : forall si (d : dom) i m r pid (s : sec) pos dim v, n_ty r = Ncm ->
  nth_error (if d then si_cm_n si else si_cm_2ns si) (n_id r) = Some pid ->
  nth_error (si_map si) pid = Some (s, pos, dim) -> s <> Stmp -> dim = (if d3 v then 3 else 1) ->
  pos + dim <= si_width si s -> dom_size si d * si_width si s <= length (m_sec m s) ->
  let row := col_row si d i (n_prime r) in
  let p := mkPol (dom_size si d) pos (si_width si s) dim in
  exists x m', dest_ref si r d (dom_next si d) (dom_size si d) = Ok x /\ write_ref m x i v = Ok m' /\
    get_row p (m_sec m' s) row = Ok v /\
    (forall s', s' <> s -> m_sec m' s' = m_sec m s') /\ length (m_sec m' s) = length (m_sec m s) /\
    (forall a, a < pos + row * si_width si s \/ pos + row * si_width si s + dim <= a -> nth_error (m_sec m' s) a = nth_error (m_sec m s) a).
Proof. exact write_cm. Qed.
Print Assumptions C53_write.

(* four rows of width two, blow-up two: cell 10 * row + column; the next row of row 3 is row 0 and of
   row 6 of the extended domain row 0 *)
Example C53_nonvacuous :
  let si := mkSI [(Scm1_n, 1, 1); (Scm1_2ns, 1, 1)] [0] [1] [] (fun _ => 2) 1 1 2 3 in
  let col n := flat_map (fun k => [e_from (fof (10 * Z.of_nat k)); e_from (fof (10 * Z.of_nat k + 1))]) (seq 0 n) in
  let m := mkM (fun s => match s with Scm1_n => col 4 | Scm1_2ns => col 8 | _ => [] end) [] [] (fun _ => Panic) in
  map (fun q => rmap (fun v => fint (c0 v)) (read_ref si (fst q) (snd q) m (N_new Ncm 0 None true))) [(true, 2); (true, 3); (false, 2); (false, 6)] =
  [Ok 31; Ok 1; Ok 41; Ok 1]%Z.
Proof. vm_compute. reflexivity. Qed.

(* C54: a compiled block does what its instructions do, one after the other *)
Theorem C54_block_runs_code : forall si code d ret blk, compile_code si code d ret = Ok blk -> forall m i,
  block_eval m [] blk i =
  do m' <- foldM (direct_step si d i) code m;
  if ret then do v <- read_ref si d i m' (i_dest (last code (mkI CCopy (N_new Ntmp 0 None false) []))); Ok (v, m')
  else Ok (e_ZERO, m').
Proof. exact compile_correct. Qed.
Print Assumptions C54_block_runs_code.

(* and returns what the verifier's executor returns on code whose references denote the same values *)
Theorem C54_same_as_verifier : forall si d i x m0, (forall p, In p (si_map si) -> fst (fst p) <> Stmp) ->
  forall code code' blk v, Forall2 (same_instr si d i x m0) code code' -> compile_code si code d true = Ok blk ->
    execute_code x code' = Ok v -> exists m', block_eval m0 [] blk i = Ok (v, m').
Proof. exact interp_agrees. Qed.
Print Assumptions C54_same_as_verifier.

(* (7 + 5) * 7 - 5 with 7 in a column on one side and an evaluation on the other *)
Example C54_nonvacuous :
  let si := mkSI [(Scm1_n, 0, 1)] [0] [] [] (fun _ => 1) 1 1 0 1 in
  let m := mkM (fun s => match s with Scm1_n => [e_from (fof 7)] | Stmp => repeat e_ZERO 3 | _ => [] end) [] [] (fun _ => Panic) in
  let x := mkV [] [] [] [] [] [e_from (fof 7)] [] [] [] [] e_ZERO e_ZERO in
  let n5 := N_new Nnumber 0 (Some 5%Z) false in
  let t k := N_new Ntmp k None false in
  let code a := [mkI CAdd (t 0) [a; n5]; mkI CMul (t 1) [t 0; a]; mkI CSub (t 2) [t 1; n5]] in
  rmap (fun v => fint (c0 v)) (do b <- compile_code si (code (N_new Ncm 0 None false)) true true; rmap fst (block_eval m [] b 0)) = Ok 79%Z /\
  rmap (fun v => fint (c0 v)) (execute_code x (code (N_new Neval 0 None false))) = Ok 79%Z /\
  Forall2 (same_instr si true 0 x m) (code (N_new Ncm 0 None false)) (code (N_new Neval 0 None false)).
Proof.
  split; [vm_compute; reflexivity|]. split; [vm_compute; reflexivity|].
  repeat (first [apply Forall2_cons | apply Forall2_nil]);
    (split; [reflexivity|]; split; [discriminate|]; do 3 (split; [reflexivity|]); split; [cbn; lia|]);
    repeat (first [apply Forall2_cons | apply Forall2_nil]);
    first [solve [left; repeat split] | right; split; [discriminate|]; split; [discriminate|]; eexists; split; vm_compute; reflexivity].
Qed.
