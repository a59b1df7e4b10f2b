(* Model of the first three stages of the prover (starky/src/stark_gen.rs:203-370) and of the setup of the constants
   (stark_setup.rs). Elements are those of f3g.rs, sections and kinds of publics are enumerations, and maps are
   functions that panic on an absent key. Log lines and the names of publics are left out. *)
From Verif Require Import Base GlModel FrField F3gModel PolyModel CodegenModel InterpModel VerifierModel HashModel FriModel FftpModel
  PolsModel ProverModel ParModel StarkModel.
Open Scope nat_scope.
Open Scope res_scope.

(* types.rs:12-18 Public: polType, polId and idx *)
Inductive pubkind : Type := PcmP | PimP | Pother.
Record public : Type := mkPub { pb_kind : pubkind; pb_pol : nat; pb_idx : nat }.
(* starkinfo.rs:13-25 PCCTX, the expressions read by the prover *)
Record pcctx : Type := mkPC { pc_f : nat; pc_t : nat; pc_num : nat; pc_den : nat }.
(* the parts of Program and StarkInfo used up to stage 3 *)
Record stageprog : Type := mkSG {
  st_publics : list public; st_pubcode : list segment;
  st_step2prev : segment; st_step3prev : segment; st_step3 : segment;
  st_pu : list pcctx; st_pe : list pcctx; st_ci : list pcctx;
  st_exp2pol : nat -> res nat; st_ncm1 : nat }.

(* starkinfo_map.rs:229-242 map_deg *)
Definition sec_deg (si : sinfo) (s : sec) : nat :=
  match s with
  | Scm1_n | Scm2_n | Scm3_n | Scm4_n | Stmpexp_n => 2 ^ si_nbits si
  | _ => 2 ^ si_nbits_ext si
  end.
(* stark_gen.rs:669-682 get_pol_ref *)
Definition get_pol_ref (si : sinfo) (id : nat) : res (sec * pol) :=
  do p <- vget (si_map si) id;
  let '(s, pos, dim) := p in Ok (s, mkPol (sec_deg si s) pos (si_width si s) dim).
(* stark_gen.rs:684-707, 594-622 on the prover's memory *)
Definition read_pol (si : sinfo) (m : mem) (id : nat) : res (list F3G) :=
  do p <- get_pol_ref si id; get_pol (snd p) (m_sec m (fst p)).
Definition write_pol (si : sinfo) (m : mem) (id : nat) (v : list F3G) : res mem :=
  do p <- get_pol_ref si id;
  do l <- set_pol (snd p) v (m_sec m (fst p));
  Ok (m_set m (fst p) l).

(* stark_gen.rs:559-574 calculate_exp_at_point *)
Definition calculate_exp_at_point (si : sinfo) (m : mem) (seg : segment) (idx : nat) : res (F3G * mem) :=
  let m := m_set m Stmp (repeat e_ZERO (sg_tmp seg)) in
  do blk <- compile_code si (sg_first seg) true true;
  block_eval m [] blk idx.
(* stark_gen.rs:255-272: public number i *)
Definition public_value (si : sinfo) (code : list segment) (m : mem) (i : nat) (p : public) : res (F3G * mem) :=
  match pb_kind p with
  | PcmP => do v <- vget (m_sec m Scm1_n) (pb_idx p * si_width si Scm1_n + pb_pol p); Ok (v, m)
  | PimP => do seg <- vget code i; calculate_exp_at_point si m seg (pb_idx p)
  | Pother => Panic
  end.
Definition set_publics (si : sinfo) (sg : stageprog) (m : mem) : res mem :=
  foldM (fun m ip =>
      do x <- public_value si (st_pubcode sg) m (fst ip) (snd ip);
      do l <- vset (m_sec (snd x) Spublics) (fst ip) (fst x);
      Ok (m_set (snd x) Spublics l))
    (combine (seq 0 (length (st_publics sg))) (st_publics sg))
    (m_set m Spublics (repeat e_ZERO (length (st_publics sg)))).

(* stark_gen.rs:203-253: the memory at the start, with the eight challenges of the default context (97-137);
   const_2ns is filled from the constants' tree. *)
Definition start_mem (si : sinfo) (cm_pols const_pols : pols) (tc : tree) : res mem :=
  let N := 2 ^ si_nbits si in
  let Next := 2 ^ si_nbits_ext si in
  do cm1 <- write_buff cm_pols;
  do w <- MG (si_nbits si);
  do we <- MG (si_nbits_ext si);
  do const_n <- write_buff const_pols;
  let z k := repeat e_ZERO k in
  let m := mkM (fun s => match s with
      | Scm1_n => cm1
      | Scm2_n => z (si_width si Scm2_n * N) | Scm3_n => z (si_width si Scm3_n * N)
      | Stmpexp_n => z (si_width si Stmpexp_n * N)
      | Scm1_2ns => z (si_width si Scm1_n * Next) | Scm2_2ns => z (si_width si Scm2_n * Next)
      | Scm3_2ns => z (si_width si Scm3_n * Next) | Scm4_2ns => z (si_width si Scm4_n * Next)
      | Sconst_n => const_n
      | Sconst_2ns => z (length (t_elements tc))
      | Sq_2ns => z (si_qdim si * Next) | Sf_2ns => z (3 * Next)
      | Sx_n => map (fun x => e_mul e_ONE x) (powers (e_from w) N)
      | Sx_2ns => ext_points (e_from we) Next
      | Schallenge => z 8
      | _ => []
      end) [] [] (build_Zh_Inv (si_nbits si) (si_nbits_ext si - si_nbits si) 0) in
  to_extend m Sconst_2ns tc.

Section Stages.
Variable perm : list Fr -> list Fr -> list Fr.

(* stark_gen.rs:282-292 and the like: extend a section, keep its tree and absorb the root *)
Definition commit_stage (workers : nat) (si : sinfo) (sn s2 : sec) (m : mem) (result : list F3G) (tr : transcript) (br : brstate)
    : res (mem * list F3G * tree * transcript * brstate) :=
  do x <- extend_and_merkelize perm workers si m sn result br;
  let '(t, out, br) := x in
  do m <- to_extend m s2 t;
  do r <- tree_root t;
  do tr <- put perm tr [r];
  Ok (m, out, t, tr, br).

(* stark_gen.rs:305-313: the columns h1 and h2 of a lookup *)
Definition h1h2_stage (si : sinfo) (sg : stageprog) (st : mem * nat) (pu : pcctx) : res (mem * nat) :=
  let '(m, n_cm) := st in
  do fid <- st_exp2pol sg (pc_f pu); do f <- read_pol si m fid;
  do tid <- st_exp2pol sg (pc_t pu); do t <- read_pol si m tid;
  do h <- calculate_H1H2 f t;
  do id1 <- vget (si_cm_n si) n_cm; do m <- write_pol si m id1 (fst h);
  do id2 <- vget (si_cm_n si) (n_cm + 1); do m <- write_pol si m id2 (snd h);
  Ok (m, n_cm + 2).
(* stark_gen.rs:335-361: the column z of a lookup, permutation or connection *)
Definition z_stage (si : sinfo) (sg : stageprog) (st : mem * nat) (o : pcctx) : res (mem * nat) :=
  let '(m, n_cm) := st in
  do nid <- st_exp2pol sg (pc_num o); do num <- read_pol si m nid;
  do did <- st_exp2pol sg (pc_den o); do den <- read_pol si m did;
  do z <- calculate_Z num den;
  do id <- vget (si_cm_n si) n_cm; do m <- write_pol si m id z;
  Ok (m, n_cm + 1).

(* stark_gen.rs:255-372: from the publics to the root of the third tree *)
Definition stage1 (workers : nat) (si : sinfo) (sg : stageprog) (m : mem) (br : brstate)
    : res (mem * list F3G * tree * transcript * brstate) :=
  do m <- set_publics si sg m;
  do tr <- put_elems perm tr_new (m_sec m Spublics);
  let result := repeat e_ZERO (2 ^ si_nbits_ext si * 8) in
  do c <- commit_stage workers si Scm1_n Scm1_2ns m result tr br;
  let '(m, result, t1, tr, br) := c in
  do x <- get_challenge perm tr; let '(u, tr) := x in
  do m <- set_challenge m 0 u;
  do x <- get_challenge perm tr; let '(dv, tr) := x in
  do m <- set_challenge m 1 dv;
  Ok (m, result, t1, tr, br).
Definition stage2 (workers : nat) (si : sinfo) (sg : stageprog) (m : mem) (result : list F3G) (tr : transcript) (br : brstate)
    : res (mem * nat * list F3G * tree * transcript * brstate) :=
  do m <- calculate_exps_parallel si Step2prev m (st_step2prev sg) workers;
  do h <- foldM (h1h2_stage si sg) (st_pu sg) (m, st_ncm1 sg);
  let '(m, n_cm) := h in
  do c <- commit_stage workers si Scm2_n Scm2_2ns m result tr br;
  let '(m, result, t2, tr, br) := c in
  do x <- get_challenge perm tr; let '(gamma, tr) := x in
  do m <- set_challenge m 2 gamma;
  do x <- get_challenge perm tr; let '(beta, tr) := x in
  do m <- set_challenge m 3 beta;
  Ok (m, n_cm, result, t2, tr, br).
Definition stage3 (workers : nat) (si : sinfo) (sg : stageprog) (m : mem) (n_cm : nat) (result : list F3G) (tr : transcript) (br : brstate)
    : res (mem * tree * transcript * brstate) :=
  do m <- calculate_exps_parallel si Step3prev m (st_step3prev sg) workers;
  do z <- foldM (z_stage si sg) (st_pu sg ++ st_pe sg ++ st_ci sg) (m, n_cm);
  let '(m, _) := z in
  do m <- calculate_exps_parallel si Step3 m (st_step3 sg) workers;
  do c <- commit_stage workers si Scm3_n Scm3_2ns m result tr br;
  let '(m, _, t3, tr, br) := c in
  Ok (m, t3, tr, br).
Definition stages (workers : nat) (si : sinfo) (sg : stageprog) (m : mem) (br : brstate) : res (mem * tree * tree * tree * transcript * brstate) :=
  do a <- stage1 workers si sg m br; let '(m, result, t1, tr, br) := a in
  do b <- stage2 workers si sg m result tr br; let '(m, n_cm, result, t2, tr, br) := b in
  do c <- stage3 workers si sg m n_cm result tr br; let '(m, t3, tr, br) := c in
  Ok (m, t1, t2, t3, tr, br).

(* stark_gen.rs:190-557 stark_gen; the tables of the bit reversal are those of the process *)
Definition stark_gen (workers : nat) (si : sinfo) (sg : stageprog) (pg : program) (steps : list nat) (nq : nat)
    (cm_pols const_pols : pols) (tc : tree) (br : brstate) : res sproof :=
  do m <- start_mem si cm_pols const_pols tc;
  do a <- stages workers si sg m br; let '(m, t1, t2, t3, tr, br) := a in
  stark_prove perm workers si pg steps nq t1 t2 t3 tc m tr br.

(* stark_setup.rs:26-63 StarkSetup::new: the tree of the constants; [ncon] is pil.nConstants *)
Definition setup_consts (workers : nat) (nbits nbe ncon : nat) (const_pols : pols) (br : brstate) : res tree * brstate :=
  if negb (nPols const_pols =? ncon) then (Panic, br) else
  match write_buff const_pols with
  | Ok buff =>
      let '(r, br) := interpolate workers buff ncon nbits (repeat e_ZERO (2 ^ nbe * ncon)) nbe br in
      (do e <- r; do ws <- words_of e; merkelize perm workers ws (nPols const_pols) (p_n const_pols * 2 ^ (nbe - nbits)), br)
  | _ => (Panic, br)
  end.
End Stages.
