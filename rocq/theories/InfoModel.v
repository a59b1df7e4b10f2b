(* Model of StarkInfo::new (starky/src/starkinfo.rs:160-272) and of StarkInfo::map (starkinfo_map.rs:10-253),
   put together from the models of their parts: the publics, the arguments, the constraint, the programs of the
   prover and the verifier, and map_section. Left out are the offsets (C34), set_code_dimensions, which only
   fills in dim fields of temporaries, map_sections, exps_n and ev_idx, which nothing reads, and log lines. *)
From Coq Require Import String.
From Verif Require Import Base F3gModel CodegenModel InterpModel VerifierModel ParModel ImModel StarkModel StageModel PubModel MapModel.
From Verif Require ArgModel.
Open Scope nat_scope.
Open Scope res_scope.

(* types.rs:141-160 PIL, the fields used here: expressions, polIdentities, nCommitments, nConstants, polDeg of the
   first reference (None if there are no references), publics, plookupIdentities, permutationIdentities and
   connectionIdentities (None is the empty list, starkinfo.rs:326-329), and the number of the constant global_l1 *)
Record pil : Type := mkPil {
  pil_exps : list expr; pil_ids : list nat; pil_ncm : nat; pil_nconst : nat; pil_deg : option nat; pil_publics : list public;
  pil_lookups : list ArgModel.lident; pil_perms : list ArgModel.lident; pil_conns : list ArgModel.cident; pil_l1 : option nat }.
(* types.rs:189-201 StarkStruct: nBits, nBitsExt and nBits of the steps *)
Record sstruct : Type := mkSS { ss_nbits : nat; ss_nbits_ext : nat; ss_steps : list nat }.

(** * The columns *)

(* var_pol_map, cm_n, cm_2ns, tmpexp_n, tmpexps, exp2pol and cm_dims; HashMaps are lists of pairs, the last
   one inserted first *)
Record cols : Type := mkCo {
  co_pols : list pol; co_n : list nat; co_2ns : list nat; co_tmp : list nat; co_texp : list (nat * nat);
  co_e2p : list (nat * nat); co_dims : list nat }.
(* starkinfo_map.rs:28-43, 53-74, 113-129, 160-172, 177-198: a column of the trace and of the extended trace *)
Definition add_cm (sn se : string) (i dim : nat) (k : cols) : res cols :=
  let p := length (co_pols k) in
  do d <- vset (co_dims k) i dim;
  Ok (mkCo (co_pols k ++ [mkPT sn 0 dim; mkPT se 0 dim]) (co_n k ++ [p]) (co_2ns k ++ [p + 1]) (co_tmp k) (co_texp k) (co_e2p k) d).
(* lines 76-86, 88-99, 131-142, 144-156: a temporary column for an expression that is not an intermediate one *)
Definition add_tmp (im : list (nat * nat)) (e dim : nat) (k : cols) : cols :=
  match assoc Nat.eqb im e, assoc Nat.eqb (co_texp k) e with
  | None, None =>
      let p := length (co_pols k) in
      mkCo (co_pols k ++ [mkPT "tmpexp_n" 0 dim]) (co_n k) (co_2ns k) (co_tmp k ++ [p]) ((e, length (co_tmp k)) :: co_texp k)
           ((e, p) :: co_e2p k) (co_dims k)
  | _, _ => k
  end.
(* the loops for n_cm1, the lookups, the grand products, the intermediate expressions and q *)
Section Map.
  Variables (fuel : nat) (tbl : list expr) (im : list (nat * nat)) (n_cm1 n_cm2 n_cm3 : nat).
  Definition dim_of (k : cols) (e : nat) : res nat := do x <- vget tbl e; get_exp_dim fuel tbl (co_dims k) [] x.
  (* lines 27-44 *)
  Definition map_cm1 (k : cols) : res cols := foldM (fun k i => add_cm "cm1_n" "cm1_2ns" i 1 k) (seq 0 n_cm1) k.
  (* lines 47-100 *)
  Definition map_pu (k : cols) (ip : nat * pcctx) : res cols :=
    let '(i, pu) := ip in
    do df <- dim_of k (pc_f pu);
    do dt <- dim_of k (pc_t pu);
    let dim := Nat.max df dt in
    do k <- add_cm "cm2_n" "cm2_2ns" (n_cm1 + i * 2) dim k;
    do k <- add_cm "cm2_n" "cm2_2ns" (n_cm1 + i * 2 + 1) dim k;
    Ok (add_tmp im (pc_t pu) dim (add_tmp im (pc_f pu) dim k)).
  (* lines 102-157 *)
  Definition map_z (k : cols) (ip : nat * pcctx) : res cols :=
    let '(i, o) := ip in
    do k <- add_cm "cm3_n" "cm3_2ns" (n_cm1 + n_cm2 + i) 3 k;
    Ok (add_tmp im (pc_den o) 3 (add_tmp im (pc_num o) 3 k)).
  (* lines 159-174; line 172 sets cm_dims[n_cm1 + n_cm2 + i] *)
  Definition map_im (k : cols) (ie : nat * nat) : res cols :=
    let '(i, e) := ie in
    do dim <- dim_of k e;
    let p := length (co_pols k) in
    do k <- add_cm "cm3_n" "cm3_2ns" (n_cm1 + n_cm2 + i) dim k;
    Ok (mkCo (co_pols k) (co_n k) (co_2ns k) (co_tmp k) (co_texp k) ((e, p) :: co_e2p k) (co_dims k)).
  (* lines 178-199 *)
  Definition map_q (dim : nat) (k : cols) (i : nat) : res cols := add_cm "cm4_n" "cm4_2ns" (n_cm1 + n_cm2 + n_cm3 + i) dim k.
End Map.
Definition enum {A} (l : list A) : list (nat * A) := combine (seq 0 (length l)) l.
(* lines 16-211: the columns and q_dim. n_cm2 is two for every lookup and n_cm3 one for every grand product and
   every intermediate expression; n_cm4 is q_deg (starkinfo_cp_prover.rs:80, 113). *)
Definition map_cols (fuel : nat) (tbl : list expr) (im : list (nat * nat)) (n_cm1 : nat) (pu pe ci : list pcctx) (c_exp q_deg : nat) : res (cols * nat) :=
  let zs := pu ++ pe ++ ci in
  let n_cm2 := 2 * length pu in
  let n_cm3 := length zs + length im in
  do k <- map_cm1 n_cm1 (mkCo [] [] [] [] [] [] (repeat 0 (n_cm1 + n_cm2 + n_cm3 + q_deg)));
  do k <- foldM (map_pu fuel tbl im n_cm1) (enum pu) k;
  do k <- foldM (map_z im n_cm1 n_cm2) (enum zs) k;
  do k <- foldM (map_im fuel tbl n_cm1 n_cm2) (enum (map fst im)) k;
  do q_dim <- dim_of fuel tbl k c_exp;
  do k <- foldM (map_q n_cm1 n_cm2 n_cm3 q_dim) (seq 0 q_deg) k;
  Ok (mkCo (co_pols k ++ [mkPT "q_2ns" 0 q_dim; mkPT "f_2ns" 0 3]) (co_n k) (co_2ns k) (co_tmp k) (co_texp k) (co_e2p k) (co_dims k), q_dim).

(* the sections by name; the other sections of memory are not in the layout *)
Definition sec_of (name : string) : res sec :=
  if String.eqb name "cm1_n" then Ok Scm1_n else if String.eqb name "cm1_2ns" then Ok Scm1_2ns
  else if String.eqb name "cm2_n" then Ok Scm2_n else if String.eqb name "cm2_2ns" then Ok Scm2_2ns
  else if String.eqb name "cm3_n" then Ok Scm3_n else if String.eqb name "cm3_2ns" then Ok Scm3_2ns
  else if String.eqb name "cm4_n" then Ok Scm4_n else if String.eqb name "cm4_2ns" then Ok Scm4_2ns
  else if String.eqb name "tmpexp_n" then Ok Stmpexp_n else if String.eqb name "q_2ns" then Ok Sq_2ns
  else if String.eqb name "f_2ns" then Ok Sf_2ns else Panic.
Definition width_of (w : index nat) (s : sec) : nat :=
  match s with
  | Scm1_n => ix_cm1_n w | Scm1_2ns => ix_cm1_2ns w | Scm2_n => ix_cm2_n w | Scm2_2ns => ix_cm2_2ns w
  | Scm3_n => ix_cm3_n w | Scm3_2ns => ix_cm3_2ns w | Scm4_n => ix_cm4_n w | Scm4_2ns => ix_cm4_2ns w
  | Stmpexp_n => ix_tmpexp_n w | Sq_2ns => ix_q_2ns w | Sf_2ns => ix_f_2ns w
  | _ => 0
  end.
(* lines 214-215: map_section on var_pol_map *)
Definition layout_of (k : cols) (q_dim nconst nbits nbits_ext : nat) : res sinfo :=
  do r <- map_section (co_pols k);
  do l <- mapM (fun x => do s <- sec_of (pt_sec x); Ok (s, pt_pos x, pt_dim x)) (fst r);
  Ok (mkSI l (co_n k) (co_2ns k) (co_tmp k) (width_of (w_n (snd r))) nconst q_dim nbits nbits_ext).

(** * StarkInfo::new *)

(* the fields of PCCTX used by the prover *)
Definition pc9 (q : ArgModel.pcctx9) : pcctx := mkPC (ArgModel.q_f q) (ArgModel.q_t q) (ArgModel.q_num q) (ArgModel.q_den q).
(* starkinfo_cp_prover.rs:88-92: the code of step 3, in the context left by step 3 prev *)
Definition step3_code (fuel : nat) (tbl : list expr) (im : list (nat * nat)) (c : context) : res (list instr * nat) :=
  do c <- foldM (fun c i => pil_code_gen fuel tbl None false c i false) (map fst im) c;
  Ok (fst (build_code tbl c)).
(* starkinfo.rs:160-272, with max_deg of starkinfo_cp_prover.rs:37. The expression of the FRI polynomial, which
   no expression refers to, is in the table of gen_program only. The shift of max_deg is exact below 64 bits,
   where nBitsExt < nBits underflows. *)
Definition starkinfo_new (fuel : nat) (p : pil) (ss : sstruct) : res (sinfo * stageprog * program) :=
  do deg <- unwrap (pil_deg p);
  if negb (2 ^ ss_nbits ss =? deg) then Err else
  do s0 <- vget (ss_steps ss) 0;
  if negb (ss_nbits_ext ss =? s0) then Err else
  do pc <- public_codes fuel (pil_exps p) (pil_publics p);
  do r2 <- ArgModel.generate_step2 fuel (ArgModel.mkA (pil_exps p) (pil_ids p) (pil_ncm p) (mkCtx 0 [] [])) (pil_lookups p);
  let '(a2, pu2, code2) := r2 in
  do o <- ArgModel.generate_step3 fuel (pil_l1 p) a2 pu2 (pil_perms p) (pil_conns p);
  let a3 := ArgModel.o_state o in
  if ss_nbits_ext ss <? ss_nbits ss then Panic else
  do ce <- gen_constraint fuel (ArgModel.a_exps a3) (ArgModel.a_ids a3) (ArgModel.a_ncm a3) (2 ^ (ss_nbits_ext ss - ss_nbits ss) + 1);
  do code3 <- step3_code fuel (ce_tbl ce) (ce_im ce) (ArgModel.a_ctx a3);
  let pu := map pc9 (ArgModel.o_pu o) in
  let pe := map pc9 (ArgModel.o_pe o) in
  let ci := map pc9 (ArgModel.o_ci o) in
  do kq <- map_cols fuel (ce_tbl ce) (ce_im ce) (pil_ncm p) pu pe ci (ce_id ce) (length (ce_qs ce));
  let '(k, q_dim) := kq in
  do si <- layout_of k q_dim (pil_nconst p) (ss_nbits ss) (ss_nbits_ext ss);
  do pg <- gen_program fuel si ce;
  do pubs <- map_publics si (ce_im ce) (co_texp k) pc;
  do s2 <- fix_prover_code si (ce_im ce) (co_texp k) true (fst code2) (snd code2);
  do s3p <- fix_prover_code si (ce_im ce) (co_texp k) true (fst (ArgModel.o_code o)) (snd (ArgModel.o_code o));
  do s3 <- fix_prover_code si (ce_im ce) (co_texp k) true (fst code3) (snd code3);
  Ok (si, mkSG (pil_publics p) pubs s2 s3p s3 pu pe ci (fun e => unwrap (assoc Nat.eqb (co_e2p k) e)) (pil_ncm p), pg).
