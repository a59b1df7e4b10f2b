(* The expressions the prover computes over the rows of the trace (C79). *)
From Verif Require Import Base GlModel FrField F3gModel Cubic F3gProof CodegenModel CodegenProof InterpModel ParModel ParProof StarkModel StarkRow StageModel StarkStages NStep NGen NTop NToy.
Open Scope nat_scope.
Open Scope list_scope.
Open Scope res_scope.

(* C79: the code generated for any list of expressions of any table, fixed for the domain of the trace and run by the
   parallel evaluator with any number of workers, ends without panic. Every column that keeps an expression then holds
   its value in every row, where cm and const references are the cells of that row or, primed, of the following row
   cyclically; expressions that other expressions read in the following row are included. What is kept in a column of one
   component has one component. Columns that no expression
   is kept in are as before in the sections the step reads, and zero in the others. *)
Theorem C79_kept_columns : forall si st im texp td tbl fl ids t0 c seg R m blk workers,
  nseg si st im texp td tbl fl ids t0 c seg R m -> nmem si st m ->
  compile_code si (sg_first seg) true false = Ok blk -> workers <> 0 ->
  exists p, calculate_exps_parallel si st m seg workers = Ok p /\
  (forall s, ~ In s (step_out st) -> m_sec p s = m_sec m s) /\
  (forall s, In s (step_out st) -> length (m_sec p s) = 2 ^ si_nbits si * sec_width si s /\ Forall vbase (m_sec p s) /\
    forall g k, g < 2 ^ si_nbits si -> k < sec_width si s -> kwrites si im texp c s k = false ->
      nth_error (m_sec p s) (g * sec_width si s + k) = if in_dec sec_dec s (step_in st) then nth_error (m_sec m s) (g * sec_width si s + k) else Some e_ZERO) /\
  forall i, In (false, i) (x_calc c) -> forall g, g < 2 ^ si_nbits si -> exists e v, nth_error tbl i = Some e /\ den tbl (row_of si m g) false e v /\
    forall s pos dim, kcol si im texp i = Some (s, pos, dim) -> (dim = 1 -> d3 v = false) /\
      nth_error (m_sec p s) (g * sec_width si s + pos) = Some (e_from (k0 (val v))) /\
      (dim = 3 -> nth_error (m_sec p s) (g * sec_width si s + pos + 1) = Some (e_from (k1 (val v))) /\ nth_error (m_sec p s) (g * sec_width si s + pos + 2) = Some (e_from (k2 (val v)))).
Proof. exact nseg_run. Qed.
Print Assumptions C79_kept_columns.
Example C79_nonvacuous : nseg ny_si Step2prev [] ny_texp (fun _ => false) ny_tbl 10 [1; 0] 0 ny_c ny_seg ny_R ny_m /\ nmem ny_si Step2prev ny_m /\
  compile_code ny_si (sg_first ny_seg) true false = Ok ny_blk /\
  rmap (fun p => m_sec p Stmpexp_n) (calculate_exps_parallel ny_si Step2prev ny_m ny_seg 3) =
    Ok [e_from (fof 4%Z); e_from (fof 21%Z); e_from (fof 25%Z); e_from (fof (GLP - 21)%Z)].
Proof. exact (conj ny_nseg (conj ny_nmem (conj ny_compiles ny_values))). Qed.

(* every requested expression is among those computed *)
Theorem C79_requested : forall tbl fl ids t0 c, gens tbl fl ids (mkCtx t0 [] []) = Ok c -> forall i, In i ids -> In (false, i) (x_calc c).
Proof. exact gens_requested. Qed.
Print Assumptions C79_requested.
Example C79_nonvacuous_requested : gens ny_tbl 10 [1; 0] (mkCtx 0 [] []) = Ok ny_c /\ In (false, 1) (x_calc ny_c).
Proof. exact (conj (ns_gen _ _ _ _ _ _ _ _ _ _ _ _ _ ny_nseg) (gens_requested _ _ _ _ _ (ns_gen _ _ _ _ _ _ _ _ _ _ _ _ _ ny_nseg) 1 (or_introl eq_refl))). Qed.
