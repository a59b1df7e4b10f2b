(* Model of calculate_exps and calculate_exps_parallel (starky/src/stark_gen.rs): running a compiled
   segment over all rows, in one go and split over worker threads. Elements are those of f3g.rs, sections
   are an enumeration instead of strings, and rayon's parallel iterator is run in order (each closure
   only touches its own chunk). *)
From Verif Require Import Base GlModel FrField F3gModel CodegenModel InterpModel HashModel ProverModel.
Open Scope nat_scope.
Open Scope res_scope.

(* starkinfo_codegen.rs Segment: "first" and tmp_used; "i" and "last" are not used here *)
Record segment : Type := mkSeg { sg_first : list instr; sg_tmp : nat }.

(* stark_gen.rs:752-783 calculate_exps; the log line is left out *)
Definition calculate_exps (m : mem) (si : sinfo) (seg : segment) (d : dom) (N : nat) : res mem :=
  let m0 := m_set m Stmp (repeat e_ZERO (sg_tmp seg)) in
  do blk <- compile_code si (sg_first seg) d false;
  foldM (fun m i => rmap snd (block_eval m [] blk i)) (seq 0 N) m0.

(* stark_gen.rs:807-857: the steps, their domains and sections *)
Inductive pstep : Type := Step2prev | Step3prev | Step3 | Step4 | Step5.
Definition step_dom (st : pstep) : dom := match st with Step4 | Step5 => false | _ => true end.
Definition step_in (st : pstep) : list sec :=
  match st with
  | Step2prev => [Scm1_n; Sconst_n]
  | Step3prev | Step3 => [Scm1_n; Scm2_n; Scm3_n; Sconst_n; Sx_n]
  | Step4 => [Scm1_2ns; Scm2_2ns; Scm3_2ns; Sconst_2ns; Sx_2ns]
  | Step5 => [Scm1_2ns; Scm2_2ns; Scm3_2ns; Scm4_2ns; Sconst_2ns]
  end.
(* the inputs xDivXSubXi and xDivXSubWXi *)
Definition step_xdiv (st : pstep) : bool := match st with Step5 => true | _ => false end.
Definition step_out (st : pstep) : list sec :=
  match st with
  | Step2prev => [Scm2_n; Scm3_n; Stmpexp_n]
  | Step3prev | Step3 => [Scm3_n; Stmpexp_n]
  | Step4 => [Sq_2ns]
  | Step5 => [Sf_2ns]
  end.

(* stark_gen.rs:859-875 set_width. map_sectionsN.get (starkinfo_codegen.rs:160-177) knows every section
   of a step except the constants and x, so q_2ns and f_2ns never get to their own branches. *)
Definition sec_width (si : sinfo) (s : sec) : nat :=
  match s with
  | Sconst_n | Sconst_2ns => si_nconst si
  | Sx_n | Sx_2ns => 1
  | _ => si_width si s
  end.

(* stark_gen.rs:888-894 and constant.rs:116-117: rows per worker. No worker panics (division by zero);
   n = 0 does not occur as n is a power of two. *)
Definition rows_per_thread (workers n : nat) : res nat :=
  if workers =? 0 then Panic
  else Ok (Nat.max MIN_OPS (Nat.min MAX_OPS ((n - 1) / workers + 1))).

(* stark_gen.rs:912-937: copying cur rows from row i on, then the next rows after them, cyclically for
   the first of these rows only *)
Definition copy_rows {A} (l : list A) (w n i cur next : nat) : res (list A) :=
  do a <- mapM (fun j => vget l (i * w + j)) (seq 0 (cur * w));
  do b <- mapM (fun j => vget l (((i + cur) mod n) * w + j)) (seq 0 (next * w));
  Ok (a ++ b).

(* stark_gen.rs:898-910 and 241: the chunk's own context. Default has empty vectors; its Zi is replaced
   before use. *)
Definition empty_ctx (m : mem) : mem :=
  mkM (fun s => match s with Spublics | Schallenge | Sevals => m_sec m s | _ => [] end) [] [] (fun _ => Panic).

Section Par.
  Variables (si : sinfo) (st : pstep).
  Let d := step_dom st.
  (* stark_gen.rs:884-886 *)
  Definition par_n : nat := dom_size si d.
  Definition par_next : nat := dom_next si d.

  (* stark_gen.rs:898-939 *)
  Definition make_chunk (m : mem) (per i : nat) : res mem :=
    let cur := Nat.min per (par_n - i) in
    do c <- foldM (fun c s =>
              do l <- copy_rows (m_sec m s) (sec_width si s) par_n i cur par_next; Ok (m_set c s l))
            (step_in st) (empty_ctx m);
    if step_xdiv st then
      do a <- copy_rows (m_xdiv m) 3 par_n i cur par_next;
      do b <- copy_rows (m_xdivw m) 3 par_n i cur par_next;
      Ok (mkM (m_sec c) a b (m_zi c))
    else Ok c.

  (* stark_gen.rs:941-951, for chunk number k *)
  Definition run_chunk (seg : segment) (per : nat) (kc : nat * mem) : res mem :=
    let '(k, c) := kc in
    let cur := Nat.min per (par_n - k * per) in
    let c1 := mkM (m_sec c) (m_xdiv c) (m_xdivw c)
                  (build_Zh_Inv (si_nbits si) (si_nbits_ext si - si_nbits si) (k * per)) in
    let c2 := fold_left (fun c s =>
                match m_sec c s with
                | [] => m_set c s (repeat e_ZERO (sec_width si s * (cur + par_next)))
                | _ => c
                end) (step_out st) c1 in
    calculate_exps c2 si seg d cur.

  (* stark_gen.rs:954-962; tmp.len() - width * next underflows (an overflow panic or an enormous loop
     that panics at its first read past the end) when the vector is shorter *)
  Definition write_section (per k : nat) (c m : mem) (s : sec) : res mem :=
    let w := sec_width si s in
    let tmp := m_sec c s in
    if length tmp <? w * par_next then Panic else
    do out <- foldM (fun out j => do v <- vget tmp j; vset out (k * per * w + j) v)
                    (seq 0 (length tmp - w * par_next)) (m_sec m s);
    Ok (m_set m s out).
  Definition write_back (per : nat) (m : mem) (kc : nat * mem) : res mem :=
    let '(k, c) := kc in foldM (write_section per k c) (step_out st) m.

  (* (0..n).step_by(per) *)
  Definition chunk_starts (per : nat) : list nat := map (fun k => k * per) (seq 0 ((par_n + per - 1) / per)).

  Definition exps_chunked (m : mem) (seg : segment) (per : nat) : res mem :=
    do cs <- mapM (make_chunk m per) (chunk_starts per);
    do cs' <- mapM (run_chunk seg per) (combine (seq 0 (length cs)) cs);
    foldM (write_back per) (combine (seq 0 (length cs')) cs') m.
  (* stark_gen.rs:786-963 calculate_exps_parallel on a machine with the given number of workers *)
  Definition calculate_exps_parallel (m : mem) (seg : segment) (workers : nat) : res mem :=
    do per <- rows_per_thread workers par_n;
    exps_chunked m seg per.
End Par.
