(* What an accepted proof means. *)
From Verif Require Import Base GlModel FrField F3gModel Cubic F3gProof PolyModel Roots PolyProof FriMath CodegenModel CodegenProof
  InterpModel VerifierModel ImModel HashModel FftpModel BrProof FriModel FriProof PolsModel PolsProof ProverModel ParModel
  StarkMath StarkModel StarkRow StarkQuot StarkTop StarkDone StageModel StarkExtend StarkStages StarkPlain StarkToy StageToy.
From Verif Require Import SoundFri SoundQuery SoundCheck SoundTop SoundToy StarkStep4 SoundLast SoundLastToy.
From Verif Require TranscriptProof.
Open Scope nat_scope.
Open Scope list_scope.
Open Scope res_scope.

(* C74: if the verifier accepts, the values the proof claims at the challenge point satisfy the identities, at each
   query the rows opened lie under the four roots and the root of the constants and combine to the FRI value, each FRI
   layer is the fold of the one before at the queried positions, and the last layer has the degree asked for. *)
Theorem C74_accepted : forall perm fuel gfuel si tbl ids ncm md ce pg steps nq rc p,
  stark_cfg fuel gfuel si tbl ids ncm md ce pg (length (sp_publics p)) -> Forall F3gProof.wf (sp_evals p) -> Forall F3gProof.wf (sp_publics p) ->
  stark_verify perm si pg steps nq rc p = Ok true ->
  exists ch tr, v_transcript perm p = Ok (ch, tr) /\ holds_at_xi si tbl ids ce (ev_map (pg_ev pg)) (sp_evals p) (sp_publics p) ch /\
    let fp := sp_fri p in
    exists b rest xs t1 zs t2, steps = b :: rest /\ length (fp_queries fp) = length steps /\
      v_challenges perm steps tr (fp_queries fp) (fp_last fp) = Ok (xs, t1) /\ get_permutations perm t1 nq b = Ok (zs, t2) /\
      layers perm (opened_rows perm si (ncm + length (ce_im ce) + length (ce_qs ce)) (ev_map (pg_ev pg)) rc p ch) true steps (fp_queries fp) xs (map Z.to_nat zs)
        (fp_last fp) (si_nbits_ext si) FriProof.K_shift /\
      exists k P, k <= 31 /\ length (fp_last fp) = 2 ^ k /\ length P = 2 ^ k /\ (forall i, i < 2 ^ k -> val (nth i (fp_last fp) e_ZERO) = peval P (kpow (kroot k) i)) /\
        forall i, (if last steps (si_nbits_ext si) <? si_nbits_ext si - si_nbits si then 0
                   else 2 ^ (last steps (si_nbits_ext si) - (si_nbits_ext si - si_nbits si))) < i -> nth i P kzero = kzero.
Proof. exact accepted. Qed.
Print Assumptions C74_accepted.
Example C74_nonvacuous : exists rc p, stark_cfg 10 20 g_si t_tbl [0; 1; 2] 1 2 t_ce g_pg (length (sp_publics p)) /\ Forall F3gProof.wf (sp_evals p) /\ Forall F3gProof.wf (sp_publics p) /\
  stark_verify ones g_si g_pg [2; 1] 3 rc p = Ok true.
Proof. exact toy_accepted. Qed.

(* C75: with one FRI layer whose last layer has as many values as the domain has points, the answers the verifier
   saw lie on a polynomial of the degree asked for. *)
Theorem C75_right_size_partial : forall perm check_query b md nq t pf (f : nat -> F3G), b <= 31 -> (forall o y l, check_query o y = Ok l -> l = [] \/ l = [f y]) ->
  fri_verify perm check_query b md nq [b] t pf = Ok true -> length (fp_last pf) = 2 ^ b ->
  exists P xs t1 zs t2, length P <= S (2 ^ md) /\ v_challenges perm [b] t (fp_queries pf) (fp_last pf) = Ok (xs, t1) /\ get_permutations perm t1 nq b = Ok (zs, t2) /\
    forall z, In z zs -> Z.to_nat z < 2 ^ b /\ val (f (Z.to_nat z)) = peval P (cpt b (Z.to_nat z)).
Proof. exact right_size. Qed.
Print Assumptions C75_right_size_partial.
Example C75_nonvacuous : (forall o y l, flat_answer o y = Ok l -> l = [] \/ l = [of_k kone]) /\
  fri_verify ones flat_answer 1 0 1 [1] tr_new flat_proof = Ok true /\ length (fp_last flat_proof) = 2 ^ 1.
Proof. exact flat_ok. Qed.
(* The number of values in the last layer is not checked: for every permutation and every challenge, answers that agree
   with no polynomial of n coefficients on 2n positions are accepted with a last layer of twice the size. *)
Theorem C75_refuted : forall perm b md nq t, (forall i s, length (perm i s) = 12) -> 1 <= b <= 30 -> md <= b -> 0 < nq -> TranscriptProof.wf t ->
  exists (f : nat -> F3G) pf, length (fp_last pf) = 2 * 2 ^ b /\
    (forall check_query, (forall o y, y < 2 ^ b -> check_query o y = Ok [f y]) -> fri_verify perm check_query b md nq [b] t pf = Ok true) /\
    forall P ys, NoDup ys -> Forall (fun y => y < 2 ^ b) ys -> 1 < length ys -> 2 * length P <= S (length ys) -> exists y, In y ys /\ peval P (cpt b y) <> val (f y).
Proof. exact wrong_size. Qed.
Print Assumptions C75_refuted.
Example C75_nonvacuous_refuted : (forall i s, length (ones i s) = 12) /\ 1 <= 3 <= 30 /\ 1 <= 3 /\ 0 < 5 /\ TranscriptProof.wf tr_new.
Proof. exact flat_start. Qed.
