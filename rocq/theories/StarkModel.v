(* Model of the program generated for the quotient and the FRI polynomial (starky/src/starkinfo_cp_prover.rs,
   starkinfo_fri_prover.rs, starkinfo_fri_ver.rs, the rewriting of code in starkinfo_map.rs), of the prover
   (stark_gen.rs stark_gen) and of the verifier (stark_verify.rs) over the Goldilocks Merkle tree. Elements
   are those of f3g.rs, sections are an enumeration. rayon's iterators run in order and its reduce is a
   left fold. Log lines are left out. *)
From Verif Require Import Base GlModel FrField F3gModel PolyModel CodegenModel InterpModel VerifierModel ImModel
  HashModel FriModel FftpModel ProverModel ParModel.
Open Scope nat_scope.
Open Scope res_scope.

(** * The program *)

(* starkinfo_cp_prover.rs:26-35, 66-70: the challenge vc is number 4 *)
Definition join_vc (c e : expr) : expr := if is_nop c then e else E_add (E_mul (E_challenge 4) c) e.
Definition identities (ids : list nat) : expr := fold_left (fun c i => join_vc c (E_exp i false)) ids E_nop.

(* starkinfo_cp_prover.rs:52-56: the keys, sorted *)
Fixpoint nins (n : nat) (l : list nat) : list nat :=
  match l with [] => [n] | m :: r => if n <=? m then n :: l else m :: nins n r end.
Fixpoint nsort (l : list nat) : list nat := match l with [] => [] | n :: r => nins n (nsort r) end.

(* the table with the constraint appended, im_exp2cm, c_exp, qs and nCommitments *)
Record cexp : Type := mkCE { ce_tbl : list expr; ce_im : list (nat * nat); ce_id : nat; ce_qs : list nat; ce_ncm : nat }.
(* starkinfo_cp_prover.rs:26-86. [ids] are the expressions of polIdentities, [ncm] is nCommitments.
   q_deg is non-negative here (C33), so the cast is exact. *)
Definition gen_constraint (fuel : nat) (tbl : list expr) (ids : list nat) (ncm max_deg : nat) : res cexp :=
  let c0 := identities ids in
  do sq <- choose_im fuel tbl c0 max_deg;
  let '(s, q) := sq in
  let im := combine (nsort s) (seq ncm (length s)) in
  do c <- foldM (fun c kc => do e <- vget tbl (fst kc); Ok (join_vc c (E_sub e (E_cm (snd kc) false)))) im c0;
  let q := Z.to_nat q in
  Ok (mkCE (tbl ++ [c]) im (length tbl) (seq (ncm + length s) q) (ncm + length s + q)).

(* starkinfo_cp_prover.rs:95-113: the code of the quotient on the extended domain *)
Definition step4_code (fuel : nat) (tbl : list expr) (im : list (nat * nat)) (c_exp : nat) : res (list instr * nat * context) :=
  do c <- pil_code_gen fuel tbl None false (mkCtx 0 [] (im_keys im)) c_exp false;
  match rev (x_code c) with
  | [] => Panic
  | cd :: r =>
      match rev (cd_code cd) with
      | [] => Panic
      | l :: _ =>
          let cd' := mkC (cd_exp cd) (cd_prime cd)
                         (cd_code cd ++ [mkI CMul (N_new Nq 0 None false) [i_dest l; N_new NZi 0 None false]]) in
          Ok (build_code tbl (mkCtx (x_tmp c) (rev (cd' :: r)) (x_calc c)))
      end
  end.

(* starkinfo_fri_prover.rs:16-27: vf1 is challenge 5 *)
Definition join_vf1 (c e : expr) : expr := if is_nop c then e else E_add (E_mul (E_challenge 5) c) e.
Definition fri_cols (ncm : nat) : expr := fold_left (fun c i => join_vf1 c (E_cm i false)) (seq 0 ncm) E_nop.
(* starkinfo_fri_prover.rs:29-58: vf2 is challenge 6; the sums of the unshifted and the shifted evaluations *)
Definition join_ev (h : expr) (i : nat) (k : evkey) : expr :=
  let e := if fst (fst k) then E_cm (snd k) false else E_const (snd k) false in
  if is_nop h then E_sub e (E_eval i) else E_add (E_mul h (E_challenge 6)) (E_sub e (E_eval i)).
Definition fri_evs (evs : list evkey) : expr * expr :=
  fold_left (fun (st : expr * expr) (ik : nat * evkey) =>
      let '(i, k) := ik in
      if snd (fst k) then (fst st, join_ev (snd st) i k) else (join_ev (fst st) i k, snd st))
    (combine (seq 0 (length evs)) evs) (E_nop, E_nop).
(* starkinfo_fri_prover.rs:63-86; the inner test of line 65 is the outer one again. keep2ns is not read by
   build_code. *)
Definition fri_expr (ncm : nat) (evs : list evkey) : res expr :=
  let c := fri_cols ncm in
  let '(h1, h2) := fri_evs evs in
  let c := if is_nop c then c else E_add (E_mul (E_challenge 5) c) (E_mul h1 E_xDivXSubXi) in
  let c := if is_nop h2 then c else join_vf1 c (E_mul h2 E_xDivXSubWXi) in
  if is_nop c then Panic else Ok c.

(* starkinfo_fri_prover.rs:89-95, in the context left by step 4; the destination set in line 93 is the one
   the code has already *)
Definition step5_code (fuel : nat) (tbl : list expr) (c : context) (fri_id : nat) : res (list instr * nat) :=
  do c <- pil_code_gen fuel tbl (Some (Nf, 0)) false c fri_id false;
  match rev (x_code c) with
  | [] => Panic
  | cd :: r =>
      do l <- set_last_dest (cd_code cd) (N_new Nf 0 None false);
      Ok (fst (build_code tbl (mkCtx (x_tmp c) (rev (mkC (cd_exp cd) (cd_prime cd) l :: r)) (x_calc c))))
  end.

(* starkinfo_fri_ver.rs:13-15, with the new context of starkinfo.rs:261-263 *)
Definition query_code (fuel : nat) (tbl : list expr) (fri_id : nat) : res (list instr * nat) :=
  do c <- pil_code_gen fuel tbl None true (mkCtx 0 [] []) fri_id false;
  Ok (fst (build_code tbl c)).

(* starkinfo_codegen.rs:651-668 iterate_code for one segment: the sources of an instruction, then its
   destination *)
Section Iter.
  Variable g : fstate -> node -> res (node * fstate).
  Fixpoint iter_refs (f : fstate) (l : list node) : res (list node * fstate) :=
    match l with
    | [] => Ok ([], f)
    | r :: l' => do a <- g f r; do b <- iter_refs (snd a) l'; Ok (fst a :: fst b, snd b)
    end.
  Fixpoint iter_code (f : fstate) (l : list instr) : res (list instr * fstate) :=
    match l with
    | [] => Ok ([], f)
    | c :: l' =>
        do s <- iter_refs f (i_src c);
        do d <- g (snd s) (i_dest c);
        do b <- iter_code (snd d) l';
        Ok (mkI (i_op c) (fst d) (fst s) :: fst b, snd b)
    end.
End Iter.

(* starkinfo_map.rs:444-483 fix_ref of fix_prover_code. [texp] is tmpexps; the fields p, exp_id and (for
   tmpExp) dim, which no later step reads, are left out. *)
Definition fixp_ref (si : sinfo) (im texp : list (nat * nat)) (d : dom) (f : fstate) (r : node) : res (node * fstate) :=
  match n_ty r with
  | Ncm => do _ <- vget (if d then si_cm_n si else si_cm_2ns si) (n_id r); Ok (r, f)
  | Nexp =>
      match assoc Nat.eqb im (n_id r) with
      | Some c => Ok (mkN Ncm c (n_value r) (n_dim r) (n_prime r) (n_pos r), f)
      | None =>
          match (if d then assoc Nat.eqb texp (n_id r) else None) with
          | Some k => Ok (mkN NtmpExp k (n_value r) (n_dim r) (n_prime r) (n_pos r), f)
          | None =>
              let '(t, f') := exp_tmp f (n_prime r, n_id r) in
              Ok (mkN Ntmp t (n_value r) (n_dim r) (n_prime r) (n_pos r), f')
          end
      end
  | Nconst | Nnumber | Nchallenge | Npublic | Ntmp | NZi | NxDivXSubXi | NxDivXSubWXi | Neval | Nx | Nq | Nf | NtmpExp => Ok (r, f)
  | _ => Panic
  end.
(* starkinfo_map.rs:427-442, 485-487 *)
Definition fix_prover_code (si : sinfo) (im texp : list (nat * nat)) (d : dom) (code : list instr) (tmp : nat) : res segment :=
  do r <- iter_code (fixp_ref si im texp d) (mkF [] tmp (mkEV [] [])) code;
  Ok (mkSeg (fst r) (f_tmp (snd r))).
(* starkinfo_map.rs:255-288, for the query code *)
Definition tree_ref (si : sinfo) (r : node) : res node :=
  match n_ty r with
  | Ncm =>
      do p <- vget (si_cm_2ns si) (n_id r);
      do q <- vget (si_map si) p;
      let '(s, pos, dim) := q in
      do t <- match s with
              | Scm1_2ns => Ok Ntree1 | Scm2_2ns => Ok Ntree2 | Scm3_2ns => Ok Ntree3 | Scm4_2ns => Ok Ntree4
              | _ => Panic
              end;
      Ok (mkN t (n_id r) (n_value r) dim (n_prime r) pos)
  | _ => Ok r
  end.
Definition tree_refs (si : sinfo) (code : list instr) : res (list instr) :=
  rmap fst (iter_code (fun f r => do r' <- tree_ref si r; Ok (r', f)) (mkF [] 0 (mkEV [] [])) code).

(* the parts of Program and StarkInfo used after stage 3 *)
Record program : Type := mkP {
  pg_step4 : segment; pg_step5 : segment; pg_verifier : list instr; pg_query : list instr; pg_ev : evst; pg_qs : list nat }.
(* starkinfo.rs:237-270: the constraint, its code for the prover and the verifier, the FRI polynomial and its
   code for both, then the rewriting of starkinfo_map.rs:232-281. The layout [si] is given; set_code_dimensions
   only fills in dim fields of temporaries and is left out. *)
Definition gen_program (fuel : nat) (si : sinfo) (ce : cexp) : res program :=
  do s4 <- step4_code fuel (ce_tbl ce) (ce_im ce) (ce_id ce);
  let '(code4, tmp4, ctx) := s4 in
  do v <- verifier_code fuel (ce_tbl ce) (ce_im ce) (ce_id ce) (ce_qs ce);
  let '(ver, ev) := v in
  do fe <- fri_expr (ce_ncm ce) (ev_map ev);
  let tbl := ce_tbl ce ++ [fe] in
  let fri_id := length (ce_tbl ce) in
  do s5 <- step5_code fuel tbl ctx fri_id;
  do qc <- query_code fuel tbl fri_id;
  do seg4 <- fix_prover_code si (ce_im ce) [] false code4 tmp4;
  do seg5 <- fix_prover_code si (ce_im ce) [] false (fst s5) (snd s5);
  do segq <- fix_prover_code si (ce_im ce) [] false (fst qc) (snd qc);
  do q <- tree_refs si (sg_first segq);
  Ok (mkP seg4 seg5 ver q ev (ce_qs ce)).

(** * The prover *)

(* Vec::resize *)
Definition resize {A} (n : nat) (x : A) (l : list A) : list A := firstn n l ++ repeat x (n - length l).
(* stark_gen.rs:236-248, 495-498 *)
Definition powers (w : F3G) (n : nat) : list F3G := map (fun k => e_exp w (Z.of_nat k)) (seq 0 n).
Definition ext_points (w : F3G) (n : nat) : list F3G := map (fun k => e_mul (e_from SHIFT) (e_exp w (Z.of_nat k))) (seq 0 n).

(* ctx.challenge[i] = v *)
Definition set_challenge (m : mem) (i : nat) (v : F3G) : res mem :=
  do l <- vset (m_sec m Schallenge) i v; Ok (m_set m Schallenge l).

(* the proof: stark_gen.rs:546-556; rootC and the address are not read by the verifier *)
Record sproof : Type := mkSP {
  sp_root1 : list Fr; sp_root2 : list Fr; sp_root3 : list Fr; sp_root4 : list Fr;
  sp_fri : friproof; sp_evals : list F3G; sp_publics : list F3G }.

Section Stark.
Variable perm : list Fr -> list Fr -> list Fr.

(* stark_gen.rs:260-264, 468-472: the words of an element, one vector each *)
Definition put_elem (t : transcript) (e : F3G) : res transcript := put perm t (map (fun x => [x]) (e_as_elements e)).
Definition put_elems (t : transcript) (l : list F3G) : res transcript := foldM put_elem l t.

(* stark_gen.rs:735-750 merkelize *)
Definition words_of (l : list F3G) : res (list Fr) := mapM e_to_be l.
Definition merkelize_sec (workers : nat) (si : sinfo) (m : mem) (s : sec) : res tree :=
  do ws <- words_of (m_sec m s);
  merkelize perm workers ws (si_width si s) (2 ^ si_nbits_ext si).
(* stark_gen.rs:709-732 extend_and_merkelize; [result] is the shared buffer *)
Definition extend_and_merkelize (workers : nat) (si : sinfo) (m : mem) (s : sec) (result : list F3G) (br : brstate)
    : res (tree * list F3G * brstate) :=
  let n_pols := si_width si s in
  let result := resize (2 ^ si_nbits_ext si * n_pols) e_ZERO result in
  let '(r, br') := interpolate workers (m_sec m s) n_pols (si_nbits si) result (si_nbits_ext si) br in
  do out <- r;
  do ws <- words_of out;
  do t <- merkelize perm workers ws n_pols (2 ^ si_nbits_ext si);
  Ok (t, out, br').
(* merklehash.rs:270-275 to_extend into the section *)
Definition to_extend (m : mem) (s : sec) (t : tree) : res mem :=
  if length (m_sec m s) =? length (t_elements t) then Ok (m_set m s (map e_from (t_elements t))) else Panic.

(* stark_gen.rs:376-391: the coefficients of the quotient, split into q_deg columns of q_dim *)
Definition split_q (qdim qdeg N : nat) (shift_inv : F3G) (qq1 qq2 : list F3G) : res (list F3G) :=
  rmap fst (foldM (fun st p =>
      let '(b, cur_s) := st in
      do b <- foldM (fun b i => foldM (fun b k =>
                do v <- vget qq1 (p * N * qdim + i * qdim + k);
                vset b (i * qdim * qdeg + qdim * p + k) (e_mul v cur_s))
              (seq 0 qdim) b) (seq 0 N) b;
      Ok (b, e_mul cur_s shift_inv)) (seq 0 qdeg) (qq2, e_ONE)).

(* stark_gen.rs:416-427: LEv or LpEv before the inverse transform *)
Fixpoint lev (n : nat) (x acc : F3G) : list F3G := match n with O => [] | S k => acc :: lev k x (e_mul acc x) end.

(* stark_gen.rs:435-466, for one entry of ev_map *)
Definition get_ev (si : sinfo) (m : mem) (k : evkey) : res (list F3G * nat * nat * nat) :=
  let '(is_cm, _, id) := k in
  if is_cm then
    do p <- vget (si_cm_2ns si) id; do q <- vget (si_map si) p;
    let '(s, pos, dim) := q in Ok (m_sec m s, pos, si_width si s, dim)
  else Ok (m_sec m Sconst_2ns, id, si_nconst si, 1).
Definition eval_at (si : sinfo) (m : mem) (LEv LpEv : list F3G) (k : evkey) : res F3G :=
  do p <- get_ev si m k;
  let '(buf, off, size, dim) := p in
  let l := if snd (fst k) then LpEv else LEv in
  let step := 2 ^ (si_nbits_ext si - si_nbits si) in
  foldM (fun acc j =>
    do v <- (if dim =? 1 then vget buf (j * step * size + off) else three buf (off + j * step * size));
    do lk <- vget l j;
    Ok (e_add acc (e_mul v lk))) (seq 0 (2 ^ si_nbits si)) e_ZERO.

(* stark_gen.rs:482-522: x / (x - z) on the extended domain, three words each *)
Definition xdiv (xs : list F3G) (z : F3G) : res (list Fr) :=
  let den := batch_inverse (F := opsE) (map (fun x => e_sub x z) xs) in
  rmap (@concat Fr) (mapM (fun dx => three_words (e_mul (fst dx) (snd dx))) (combine den xs)).

(* stark_gen.rs:525-532 *)
Definition fri_pol (l : list F3G) (n : nat) : res (list F3G) := mapM (fun i => three l (i * 3)) (seq 0 n).

(* stark_gen.rs:534-542 query_pol. A row that cannot be opened panics; FriModel's callback is total, so the
   empty opening stands for that. *)
Definition open_at (t : tree) (i : nat) : opening := match get_group_proof t i with Ok o => o | _ => ([], []) end.
Definition open_all (t1 t2 t3 t4 tc : tree) (i : nat) : list opening :=
  [open_at t1 i; open_at t2 i; open_at t3 i; open_at t4 i; open_at tc i].

(* stark_gen.rs:370-415: the quotient, its tree and the challenge point *)
Definition quotient_phase (workers : nat) (si : sinfo) (pg : program) (m : mem) (tr : transcript) (br : brstate)
    : res (mem * tree * list Fr * F3G * transcript) :=
  let nbe := si_nbits_ext si in
  let N := 2 ^ si_nbits si in
  let qdim := si_qdim si in
  let qdeg := length (pg_qs pg) in
  do c4 <- get_challenge perm tr; let '(vc, tr) := c4 in
  do m <- set_challenge m 4 vc;
  do m <- calculate_exps_parallel si Step4 m (pg_step4 pg) workers;
  let '(r1, br) := p_fft workers true (m_sec m Sq_2ns) qdim nbe (repeat e_ZERO (length (m_sec m Sq_2ns))) br in
  do qq1 <- r1;
  let shift_inv := e_exp (e_inv (e_from SHIFT)) (Z.of_nat N) in
  do qq2 <- split_q qdim qdeg N shift_inv qq1 (repeat e_ZERO (qdim * 2 ^ nbe * qdeg));
  let '(r2, br) := if 0 <? qdeg then p_fft workers false qq2 (qdim * qdeg) nbe (m_sec m Scm4_2ns) br
                   else (Ok (m_sec m Scm4_2ns), br) in
  do cm4 <- r2;
  let m := m_set m Scm4_2ns cm4 in
  do t4 <- unwrap (merkelize_sec workers si m Scm4_2ns);
  do root4 <- tree_root t4;
  do tr <- put perm tr [root4];
  do c7 <- get_challenge perm tr; let '(xi, tr) := c7 in
  do m <- set_challenge m 7 xi;
  Ok (m, t4, root4, xi, tr).

(* stark_gen.rs:416-475: the evaluations at the challenge point and the challenges for the FRI polynomial *)
Definition evals_phase (si : sinfo) (pg : program) (m : mem) (xi : F3G) (tr : transcript) : res (mem * list F3G * transcript) :=
  let N := 2 ^ si_nbits si in
  do g <- MG (si_nbits si);
  do LEv <- ifft (F := opsE) (lev N (e_div xi (e_from SHIFT)) (e_from (fof 1)));
  do LpEv <- ifft (F := opsE) (lev N (e_div (e_mul xi (e_from g)) (e_from SHIFT)) (e_from (fof 1)));
  do evals <- mapM (eval_at si m LEv LpEv) (ev_map (pg_ev pg));
  let m := m_set m Sevals evals in
  do tr <- put_elems tr evals;
  do c5 <- get_challenge perm tr; let '(v1, tr) := c5 in
  do m <- set_challenge m 5 v1;
  do c6 <- get_challenge perm tr; let '(v2, tr) := c6 in
  do m <- set_challenge m 6 v2;
  Ok (m, evals, tr).

(* stark_gen.rs:477-532: the FRI polynomial on the extended domain *)
Definition fri_phase (workers : nat) (si : sinfo) (pg : program) (m : mem) (xi : F3G) : res (mem * list F3G) :=
  let nbe := si_nbits_ext si in
  do g <- MG (si_nbits si);
  do ge <- MG nbe;
  let xs := ext_points (e_from ge) (2 ^ nbe) in
  do xd <- xdiv xs xi;
  do xdw <- xdiv xs (e_mul xi (e_from g));
  let m := mkM (m_sec m) xd xdw (m_zi m) in
  do m <- calculate_exps_parallel si Step5 m (pg_step5 pg) workers;
  do fp <- fri_pol (m_sec m Sf_2ns) (2 ^ nbe);
  Ok (m, fp).

(* stark_gen.rs:370-557, from the transcript after root3 on *)
Definition stark_prove (workers : nat) (si : sinfo) (pg : program) (steps : list nat) (nq : nat)
    (t1 t2 t3 tc : tree) (m : mem) (tr : transcript) (br : brstate) : res sproof :=
  do q <- quotient_phase workers si pg m tr br; let '(m, t4, root4, xi, tr) := q in
  do v <- evals_phase si pg m xi tr; let '(m, evals, tr) := v in
  do f <- fri_phase workers si pg m xi; let '(m, fp) := f in
  do fr <- fri_prove perm workers (si_nbits_ext si) nq steps tr fp (open_all t1 t2 t3 t4 tc);
  do root1 <- tree_root t1;
  do root2 <- tree_root t2;
  do root3 <- tree_root t3;
  Ok (mkSP root1 root2 root3 root4 (fst fr) evals (m_sec m Spublics)).

(** * The verifier *)

(* stark_verify.rs:86-133 check_query *)
Definition check_root (root : list Fr) (q : list opening) (k idx : nat) : res unit :=
  do o <- vget q k;
  do ok <- verify_group_proof perm root (snd o) idx (fst o);
  if ok then Ok tt else Err.
Definition check_query (si : sinfo) (pg : program) (const_root : list Fr) (p : sproof) (challenge : list F3G)
    (q : list opening) (idx : nat) : res (list F3G) :=
  do _ <- check_root (sp_root1 p) q 0 idx;
  do _ <- check_root (sp_root2 p) q 1 idx;
  do _ <- check_root (sp_root3 p) q 2 idx;
  do _ <- check_root (sp_root4 p) q 3 idx;
  do _ <- check_root const_root q 4 idx;
  do o1 <- vget q 0; do o2 <- vget q 1; do o3 <- vget q 2; do o4 <- vget q 3; do oc <- vget q 4;
  do ge <- MG (si_nbits_ext si);
  do g <- MG (si_nbits si);
  do xi <- vget challenge 7;
  let x := e_mul (e_from SHIFT) (e_exp (e_from ge) (Z.of_nat idx)) in
  let xd := e_as_elements (e_div x (e_sub x xi)) in
  let xdw := e_as_elements (e_div x (e_sub x (e_mul xi (e_from g)))) in
  do v <- execute_code (mkV (fst o1) (fst o2) (fst o3) (fst o4) (fst oc) (sp_evals p) (sp_publics p) challenge xd xdw e_ZERO e_ZERO)
            (pg_query pg);
  Ok [v].

(* stark_verify.rs:36-63: the challenges, in the order of ctx.challenge *)
Definition v_transcript (p : sproof) : res (list F3G * transcript) :=
  do tr <- put_elems tr_new (sp_publics p);
  do tr <- put perm tr [sp_root1 p];
  do x <- get_challenge perm tr; let '(c0, tr) := x in
  do x <- get_challenge perm tr; let '(c1, tr) := x in
  do tr <- put perm tr [sp_root2 p];
  do x <- get_challenge perm tr; let '(c2, tr) := x in
  do x <- get_challenge perm tr; let '(c3, tr) := x in
  do tr <- put perm tr [sp_root3 p];
  do x <- get_challenge perm tr; let '(c4, tr) := x in
  do tr <- put perm tr [sp_root4 p];
  do x <- get_challenge perm tr; let '(c7, tr) := x in
  do tr <- put_elems tr (sp_evals p);
  do x <- get_challenge perm tr; let '(c5, tr) := x in
  do x <- get_challenge perm tr; let '(c6, tr) := x in
  Ok ([c0; c1; c2; c3; c4; c5; c6; c7], tr).

(* stark_verify.rs:20-136 *)
Definition stark_verify (si : sinfo) (pg : program) (steps : list nat) (nq : nat) (const_root : list Fr) (p : sproof) : res bool :=
  do x <- v_transcript p; let '(challenge, tr) := x in
  do xi <- vget challenge 7;
  do g <- MG (si_nbits si);
  let zp := e_sub (e_exp (e_mul xi (e_from g)) (2 ^ Z.of_nat (si_nbits si))) e_ONE in
  do ok <- check_constraint (mkV [] [] [] [] [] (sp_evals p) (sp_publics p) challenge [] [] e_ZERO zp)
             (pg_verifier pg) (pg_ev pg) (pg_qs pg) (si_nbits si);
  if ok then
    fri_verify perm (check_query si pg const_root p challenge) (si_nbits_ext si) (si_nbits si) nq steps tr (sp_fri p)
  else Ok false.
End Stark.
