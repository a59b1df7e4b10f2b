(* Model of the generation of the lookup, permutation and connection arguments: starky/src/starkinfo.rs:324-409 and
   starkinfo_Z.rs. Challenges are numbered by CHALLENGE_MAP (constant.rs): u 0, defVal 1, gamma 2, beta 3. The flag keep
   of an expression is set where the program sets keep or idQ; the counter nQ and the degrees are not used by the code
   modelled here and left out, as are the counters n_cm2 and the log messages. *)
From Verif Require Import Base GlModel FrField PolyModel CodegenModel.
Open Scope nat_scope.
Open Scope res_scope.

(* types.rs:107-116 and 119-128 without file name and line *)
Record lident : Type := mkL { l_f : option (list nat); l_t : option (list nat); l_selF : option nat; l_selT : option nat }.
(* types.rs:131-138 without file name and line *)
Record cident : Type := mkCI { ci_pols : option (list nat); ci_conns : option (list nat) }.
(* starkinfo.rs PCCTX *)
Record pcctx9 : Type := mkQ { q_h1 : nat; q_h2 : nat; q_f : nat; q_t : nat; q_c1 : nat; q_c2 : nat; q_num : nat; q_den : nat; q_z : nat }.
(* the parts of PIL and Context that change: expressions, the expression numbers of polIdentities, nCommitments *)
Record astate : Type := mkA { a_exps : list expr; a_ids : list nat; a_ncm : nat; a_ctx : context }.

Definition U : expr := E_challenge 0.
Definition DEFVAL : expr := E_challenge 1.
Definition GAMMA : expr := E_challenge 2.
Definition BETA : expr := E_challenge 3.
Definition ONE_ : expr := E_number 1.
(* keep = Some(true) or idQ = Some(_) *)
Definition kept (e : expr) : expr := let 'mkE op id next value values c _ := e in mkE op id next value values c true.
(* pil.expressions.push *)
Definition push_exp (s : astate) (e : expr) : astate := mkA (a_exps s ++ [e]) (a_ids s) (a_ncm s) (a_ctx s).
(* pil.polIdentities.push *)
Definition push_id (s : astate) (i : nat) : astate := mkA (a_exps s) (a_ids s ++ [i]) (a_ncm s) (a_ctx s).
(* pil.nCommitments += 1 *)
Definition push_cm (s : astate) : astate := mkA (a_exps s) (a_ids s) (a_ncm s + 1) (a_ctx s).
Definition next_exp (s : astate) : nat := length (a_exps s).
(* pil_code_gen(ctx, pil, id, false, "", 0, false) *)
Definition gen_code (fl : nat) (s : astate) (id : nat) : res astate :=
  do c <- pil_code_gen fl (a_exps s) None false (a_ctx s) id false; Ok (mkA (a_exps s) (a_ids s) (a_ncm s) c).
(* build_code followed by ctx.calculated.clear() *)
Definition close_code (s : astate) : (list instr * nat) * astate :=
  let '(code, tmp, c) := build_code (a_exps s) (a_ctx s) in
  ((code, tmp), mkA (a_exps s) (a_ids s) (a_ncm s) (mkCtx (x_tmp c) (x_code c) [])).

(* starkinfo.rs:336-344, starkinfo_Z.rs:39-49 *)
Definition lc_t (ids : list nat) : expr :=
  fold_left (fun acc j => if is_nop acc then E_exp j false else E_add (E_mul U acc) (E_exp j false)) ids E_nop.
(* starkinfo.rs:358-366 (the comparison with nop is on the whole expression there), starkinfo_Z.rs:66-74 *)
Definition lc_f (ids : list nat) : expr :=
  fold_left (fun acc j => if is_nop acc then E_exp j false else E_add (E_mul acc U) (E_exp j false)) ids E_nop.
(* starkinfo.rs:346-352, 367-374, starkinfo_Z.rs:51-57, 76-82: (e - d) * sel + d *)
Definition selected_exp (sel : option nat) (d e : expr) : expr :=
  match sel with
  | None => e
  | Some j => kept (E_add (E_mul (E_sub e d) (E_exp j false)) d)
  end.

(* starkinfo.rs:333-398: one lookup *)
Definition step2_one (fl : nat) (s : astate) (pi : lident) : res (astate * pcctx9) :=
  do ts <- unwrap (l_t pi);
  let t_id := next_exp s in
  let s1 := push_exp s (kept (selected_exp (l_selT pi) DEFVAL (lc_t ts))) in
  do fs <- unwrap (l_f pi);
  let f_id := next_exp s1 in
  let s2 := push_exp s1 (kept (selected_exp (l_selF pi) (E_exp t_id false) (lc_f fs))) in
  do s3 <- gen_code fl s2 f_id;
  do s4 <- gen_code fl s3 t_id;
  let h1 := a_ncm s4 in
  let s5 := push_cm s4 in
  let h2 := a_ncm s5 in
  let s6 := push_cm s5 in
  Ok (s6, mkQ h1 h2 f_id t_id 0 0 0 0 0).
Fixpoint step2_loop (fl : nat) (s : astate) (l : list lident) : res (astate * list pcctx9) :=
  match l with
  | [] => Ok (s, [])
  | pi :: r => do a <- step2_one fl s pi; do b <- step2_loop fl (fst a) r; Ok (fst b, snd a :: snd b)
  end.
(* starkinfo.rs:324-409 generate_step2 *)
Definition generate_step2 (fl : nat) (s : astate) (l : list lident) : res (astate * list pcctx9 * (list instr * nat)) :=
  do r <- step2_loop fl s l; let '(code, s') := close_code (fst r) in Ok (s', snd r, code).

(* starkinfo_Z.rs:39-101: one permutation *)
Definition perm_lc_one (s : astate) (pi : lident) : res (astate * pcctx9) :=
  do ts <- unwrap (l_t pi);
  let t_exp := selected_exp (l_selT pi) DEFVAL (lc_t ts) in
  if is_nop t_exp then Panic else
  let t_id := next_exp s in
  let s1 := push_exp s t_exp in
  do fs <- unwrap (l_f pi);
  let f_exp := selected_exp (l_selF pi) DEFVAL (lc_f fs) in
  let f_id := next_exp s1 in
  if is_nop f_exp then Panic else
  let s2 := push_exp s1 f_exp in
  Ok (s2, mkQ 0 0 f_id t_id 0 0 0 0 0).
Fixpoint perm_lc (s : astate) (l : list lident) : res (astate * list pcctx9) :=
  match l with
  | [] => Ok (s, [])
  | pi :: r => do a <- perm_lc_one s pi; do b <- perm_lc (fst a) r; Ok (fst b, snd a :: snd b)
  end.

(* starkinfo_Z.rs:132, 226, 385: L1 * (z - 1) *)
Definition first_exp (l1 z : nat) : expr := E_mul (E_const l1 false) (E_sub (E_cm z false) ONE_).
(* starkinfo_Z.rs:185, 261-264, 400-403: z' * den - z * num *)
Definition step_exp (z num den : nat) : expr :=
  E_sub (E_mul (E_cm z true) (E_exp den false)) (E_mul (E_cm z false) (E_exp num false)).
(* starkinfo_Z.rs:147-160 *)
Definition lookup_num (f t : nat) : expr :=
  kept (E_mul (E_mul (E_add (E_exp f false) GAMMA)
                     (E_add (E_add (E_exp t false) (E_mul (E_exp t true) BETA)) (E_mul GAMMA (E_add ONE_ BETA))))
              (E_add ONE_ BETA)).
(* starkinfo_Z.rs:165-179 *)
Definition lookup_den (h1 h2 : nat) : expr :=
  kept (E_mul (E_add (E_add (E_cm h1 false) (E_mul (E_cm h2 false) BETA)) (E_mul GAMMA (E_add ONE_ BETA)))
              (E_add (E_add (E_cm h2 false) (E_mul (E_cm h1 true) BETA)) (E_mul GAMMA (E_add ONE_ BETA)))).

(* starkinfo_Z.rs:114-196: one lookup; [l1] is the number of the constant polynomial global_l1, if defined *)
Definition plookup_z_one (fl : nat) (l1 : option nat) (s : astate) (q : pcctx9) : res (astate * pcctx9) :=
  let z := a_ncm s in
  let s1 := push_cm s in
  do l <- unwrap l1;
  let c1 := next_exp s1 in
  let s2 := push_id (push_exp s1 (first_exp l z)) c1 in
  let num := next_exp s2 in
  let s3 := push_exp s2 (lookup_num (q_f q) (q_t q)) in
  let den := next_exp s3 in
  let s4 := push_exp s3 (lookup_den (q_h1 q) (q_h2 q)) in
  let c2 := next_exp s4 in
  let s5 := push_id (push_exp s4 (step_exp z num den)) c2 in
  do s6 <- gen_code fl s5 num;
  do s7 <- gen_code fl s6 den;
  Ok (s7, mkQ (q_h1 q) (q_h2 q) (q_f q) (q_t q) c1 c2 num den z).
Fixpoint plookup_z (fl : nat) (l1 : option nat) (s : astate) (l : list pcctx9) : res (astate * list pcctx9) :=
  match l with
  | [] => Ok (s, [])
  | q :: r => do a <- plookup_z_one fl l1 s q; do b <- plookup_z fl l1 (fst a) r; Ok (fst b, snd a :: snd b)
  end.

(* starkinfo_Z.rs:214-278: one permutation *)
Definition perm_z_one (fl : nat) (l1 : option nat) (s : astate) (q : pcctx9) : res (astate * pcctx9) :=
  let z := a_ncm s in
  let s1 := push_cm s in
  do l <- unwrap l1;
  let c1 := next_exp s1 in
  let s2 := push_id (push_exp s1 (first_exp l z)) c1 in
  let num := next_exp s2 in
  let s3 := push_exp s2 (kept (E_add (E_exp (q_f q) false) BETA)) in
  let den := next_exp s3 in
  let s4 := push_exp s3 (kept (E_add (E_exp (q_t q) false) BETA)) in
  let c2 := next_exp s4 in
  let s5 := push_id (push_exp s4 (step_exp z num den)) c2 in
  do s6 <- gen_code fl s5 num;
  do s7 <- gen_code fl s6 den;
  Ok (s7, mkQ (q_h1 q) (q_h2 q) (q_f q) (q_t q) c1 c2 num den z).
Fixpoint perm_z (fl : nat) (l1 : option nat) (s : astate) (l : list pcctx9) : res (astate * list pcctx9) :=
  match l with
  | [] => Ok (s, [])
  | q :: r => do a <- perm_z_one fl l1 s q; do b <- perm_z fl l1 (fst a) r; Ok (fst b, snd a :: snd b)
  end.

(* starkinfo_Z.rs:336-376: the columns after the first; [num] and [den] are the products so far *)
Fixpoint conn_cols (s : astate) (num den : nat) (pols conns : list nat) (ks : list Fr) : res (astate * nat * nat) :=
  match pols with
  | [] => Ok (s, num, den)
  | p :: pols' =>
      do k <- unwrap (hd_error ks);
      let num_exp := kept (E_mul (E_exp num false)
        (E_add (E_add (E_exp p false) (E_mul (E_mul BETA (E_number (fint k))) E_x)) GAMMA)) in
      do c <- unwrap (hd_error conns);
      let den_exp := kept (E_mul (E_exp den false) (E_add (E_add (E_exp p false) (E_mul BETA (E_exp c false))) GAMMA)) in
      let num' := next_exp s in
      let s1 := push_exp s num_exp in
      let den' := next_exp s1 in
      let s2 := push_exp s1 den_exp in
      conn_cols s2 num' den' pols' (tl conns) (tl ks)
  end.
(* starkinfo_Z.rs:296-420: one connection *)
Definition conn_z_one (fl : nat) (l1 : option nat) (s : astate) (ci : cident) : res (astate * pcctx9) :=
  do pols <- unwrap (ci_pols ci);
  do conns <- unwrap (ci_conns ci);
  let z := a_ncm s in
  let s1 := push_cm s in
  do p0 <- unwrap (hd_error pols);
  do c0 <- unwrap (hd_error conns);
  let num := next_exp s1 in
  let s2 := push_exp s1 (kept (E_add (E_add (E_exp p0 false) (E_mul BETA E_x)) GAMMA)) in
  let den := next_exp s2 in
  let s3 := push_exp s2 (kept (E_add (E_add (E_exp p0 false) (E_mul BETA (E_exp c0 false))) GAMMA)) in
  do ks <- get_ks (length pols - 1);
  do r <- conn_cols s3 num den (tl pols) (tl conns) ks;
  let '(s4, num', den') := r in
  do l <- unwrap l1;
  let c1 := next_exp s4 in
  let s5 := push_id (push_exp s4 (first_exp l z)) c1 in
  let c2 := next_exp s5 in
  let s6 := push_id (push_exp s5 (step_exp z num' den')) c2 in
  do s7 <- gen_code fl s6 num';
  do s8 <- gen_code fl s7 den';
  Ok (s8, mkQ 0 0 0 0 c1 c2 num' den' z).
Fixpoint conn_z (fl : nat) (l1 : option nat) (s : astate) (l : list cident) : res (astate * list pcctx9) :=
  match l with
  | [] => Ok (s, [])
  | c :: r => do a <- conn_z_one fl l1 s c; do b <- conn_z fl l1 (fst a) r; Ok (fst b, snd a :: snd b)
  end.

Record step3out : Type := mkS3 { o_state : astate; o_pu : list pcctx9; o_pe : list pcctx9; o_ci : list pcctx9; o_code : list instr * nat }.
(* starkinfo_Z.rs:12-30 generate_step3; [pu] comes from generate_step2 and has one entry for every lookup *)
Definition generate_step3 (fl : nat) (l1 : option nat) (s : astate) (pu : list pcctx9) (perms : list lident) (conns : list cident) : res step3out :=
  do a <- perm_lc s perms;
  do b <- plookup_z fl l1 (fst a) pu;
  do c <- perm_z fl l1 (fst b) (snd a);
  do d <- conn_z fl l1 (fst c) conns;
  let '(code, s') := close_code (fst d) in
  Ok (mkS3 s' (snd b) (snd c) (snd d) code).
