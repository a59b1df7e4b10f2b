(* Parallel evaluation of expressions (C46). *)
From Verif Require Import Base GlModel FrField F3gModel PolyModel ProverModel CodegenModel InterpModel HashModel ParModel ParProof.
Open Scope nat_scope.
Open Scope res_scope.

(* C46: for every step, program, memory and worker count, running the segment in chunks gives the
   sections of running it row by row, provided
   - the block is row-local: it reads a temporary only after assigning it in the same row, reads a column
     it writes only at the row itself, reads other columns at the row or the next one, writes only at the row,
     and puts extension elements only into columns (or temporaries) that are meant for them;
   - the memory is as the prover allocates it, with full sections of base elements;
   - the sections that are only written start as zero;
   - the last chunk is not shorter than the number of rows a "next" reference looks ahead. *)
Theorem C46_chunks : forall si st W td m seg blk per,
  si_nbits si <= si_nbits_ext si <= 32 -> per <> 0 ->
  par_n si st <= per \/ par_next si st <= (par_n si st - 1) mod per + 1 ->
  compile_code si (sg_first seg) (step_dom st) false = Ok blk ->
  row_local si st W td (sg_tmp seg) m [] blk -> mem_ok si st m -> outputs_fresh si st m ->
  exists g p, calculate_exps m si seg (step_dom st) (par_n si st) = Ok g /\ exps_chunked si st m seg per = Ok p /\
    forall s, s <> Stmp -> m_sec p s = m_sec g s.
Proof. exact chunks_same. Qed.
Print Assumptions C46_chunks.

(* with the rows per worker the code chooses *)
Theorem C46_parallel : forall si st W td m seg blk workers per,
  si_nbits si <= si_nbits_ext si <= 32 -> rows_per_thread workers (par_n si st) = Ok per ->
  par_n si st <= per \/ par_next si st <= (par_n si st - 1) mod per + 1 ->
  compile_code si (sg_first seg) (step_dom st) false = Ok blk ->
  row_local si st W td (sg_tmp seg) m [] blk -> mem_ok si st m -> outputs_fresh si st m ->
  exists g p, calculate_exps m si seg (step_dom st) (par_n si st) = Ok g /\ calculate_exps_parallel si st m seg workers = Ok p /\
    forall s, s <> Stmp -> m_sec p s = m_sec g s.
Proof. exact parallel_same. Qed.
Print Assumptions C46_parallel.

(* on the trace domain (steps 2 and 3) nothing is asked of the split *)
Theorem C46_parallel_trace : forall si st W td m seg blk workers, step_dom st = true ->
  si_nbits si <= si_nbits_ext si <= 32 -> workers <> 0 ->
  compile_code si (sg_first seg) (step_dom st) false = Ok blk ->
  row_local si st W td (sg_tmp seg) m [] blk -> mem_ok si st m -> outputs_fresh si st m ->
  exists g p, calculate_exps m si seg (step_dom st) (par_n si st) = Ok g /\ calculate_exps_parallel si st m seg workers = Ok p /\
    forall s, s <> Stmp -> m_sec p s = m_sec g s.
Proof. exact parallel_same_n. Qed.
Print Assumptions C46_parallel_trace.

(* without zeroed outputs: written columns and input sections agree, the other columns of the sections that
   are only written keep their content in the sequential run and become zero in the parallel one *)
Theorem C46_exact : forall si st W td m seg blk workers per,
  si_nbits si <= si_nbits_ext si <= 32 -> rows_per_thread workers (par_n si st) = Ok per ->
  par_n si st <= per \/ par_next si st <= (par_n si st - 1) mod per + 1 ->
  compile_code si (sg_first seg) (step_dom st) false = Ok blk ->
  row_local si st W td (sg_tmp seg) m [] blk -> mem_ok si st m -> out_zero si st W m ->
  exists g p, calculate_exps m si seg (step_dom st) (par_n si st) = Ok g /\ calculate_exps_parallel si st m seg workers = Ok p /\
    (forall s, s <> Stmp -> ~ In s (step_out st) -> m_sec p s = m_sec g s) /\
    (forall s r c, In s (step_out st) -> r < par_n si st -> c < sec_width si s ->
       (W s c = false -> nth_error (m_sec g s) (r * sec_width si s + c) = nth_error (m_sec m s) (r * sec_width si s + c)) /\
       nth_error (m_sec p s) (r * sec_width si s + c) =
         if W s c || in_out st s then nth_error (m_sec g s) (r * sec_width si s + c) else Some e_ZERO).
Proof. exact parallel_exact. Qed.
Print Assumptions C46_exact.

(* so the property fails when a section that is only written already holds something: step3 clears what an
   earlier step left in tmpexp_n *)
Theorem C46_output_only_refuted : exists si st m seg workers,
  mem_ok si st m /\ row_local si st (fun _ _ => false) (fun _ => false) (sg_tmp seg) m [] [] /\
  compile_code si (sg_first seg) (step_dom st) false = Ok [] /\
  rmap (fun g => m_sec g Stmpexp_n) (calculate_exps m si seg (step_dom st) (par_n si st)) = Ok [e_ONE] /\
  rmap (fun p => m_sec p Stmpexp_n) (calculate_exps_parallel si st m seg workers) = Ok [e_ZERO].
Proof. exact output_only_differs. Qed.
Print Assumptions C46_output_only_refuted.

(* and a last chunk with fewer rows than a "next" reference looks ahead makes every run panic *)
Theorem C46_short_last_chunk_refuted : forall si st m seg per s,
  per <> 0 -> per < par_n si st -> (par_n si st - 1) mod per + 1 < par_next si st ->
  In s (step_in st) -> 0 < sec_width si s -> length (m_sec m s) = par_n si st * sec_width si s ->
  exps_chunked si st m seg per = Panic.
Proof. exact short_chunk_panics. Qed.
Print Assumptions C46_short_last_chunk_refuted.

(* four rows in chunks of three and one *)
Example C46_nonvacuous :
  (exists blk, compile_code ex_si (sg_first ex_seg) true false = Ok blk /\
     row_local ex_si Step2prev ex_W (fun _ => false) 1 ex_mem [] blk) /\
  mem_ok ex_si Step2prev ex_mem /\ outputs_fresh ex_si Step2prev ex_mem /\
  par_next ex_si Step2prev <= (par_n ex_si Step2prev - 1) mod 3 + 1 /\
  rmap (fun p => (map (fun v => fint (c0 v)) (m_sec p Scm2_n), map (fun v => fint (c0 v)) (m_sec p Stmpexp_n)))
    (exps_chunked ex_si Step2prev ex_mem ex_seg 3)
  = Ok ([3; 3; 1; MODULUS - 6], [1; 2; 3; 3; 6; 9; 7; 14; 21; 8; 16; 24])%Z.
Proof.
  split; [exact ex_local|]. split; [exact (proj1 ex_mem_ok)|]. split; [exact (proj2 ex_mem_ok)|].
  split; [vm_compute; apply le_n|]. vm_compute. reflexivity.
Qed.
(* three workers and a blow-up of 2^13 leave a last chunk of 5460 rows, shorter than 8192 *)
Example C46_nonvacuous_short :
  rows_per_thread 3 (2 ^ 14) = Ok 5462 /\ (2 ^ 14 - 1) mod 5462 + 1 = 5460 /\ 5460 < 2 ^ (14 - 1).
Proof. split; [vm_compute; reflexivity|]. split; [vm_compute; reflexivity|]. apply Nat.ltb_lt. vm_compute. reflexivity. Qed.
