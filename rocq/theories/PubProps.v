(* The publics of a proof (C81). *)
From Verif Require Import Base F3gModel F3gProof CodegenModel CodegenProof VerifierProof InterpModel ParModel StarkModel StarkSrc StageModel StarkExtend StarkStages NTop PubModel PubProof PubToy.
Open Scope nat_scope.
Open Scope list_scope.
Open Scope res_scope.

(* C81: let the publics given by expressions come first and those given by a cell of a committed column after them, and
   let every leaf of the expressions be a cell of a committed or constant column or a literal. Then the code generated
   for the publics runs without panic, and the publics handed to the transcript are, in order, the values of the
   expressions in the rows named (primed references being cells of the following row, cyclically) and the cells named.
   No other part of the memory changes, temporaries aside. *)
Theorem C81_publics_partial : forall fuel tbl si im texp sg segs (R : bool * nat -> Prop) m ims cms,
  st_publics sg = ims ++ cms -> Forall (fun p => pb_kind p = PimP) ims -> Forall (fun p => pb_kind p = PcmP /\ pb_pol p < si_width si Scm1_n) cms ->
  public_codes fuel tbl (st_publics sg) = Ok segs -> map_publics si im texp segs = Ok (st_pubcode sg) -> Forall wf_e tbl ->
  (forall p, In p (si_map si) -> fst (fst p) <> Stmp) ->
  length (m_sec m Scm1_n) = 2 ^ si_nbits si * si_width si Scm1_n /\ length (m_sec m Sconst_n) = 2 ^ si_nbits si * si_nconst si ->
  Forall (fun p => pb_idx p < 2 ^ si_nbits si) (st_publics sg) ->
  Forall (fun p => R (false, pb_pol p)) ims ->
  (forall p i e, R (p, i) -> nth_error tbl i = Some e -> labs (pub_node si) false p e /\ forall k, In k (exp_refs p e) -> R k) ->
  exists m', set_publics si sg m = Ok m' /\ same_but [Spublics; Stmp] m m' /\
    Forall2 (fun p v => match pb_kind p with
      | PcmP => nth_error (m_sec m Scm1_n) (pb_idx p * si_width si Scm1_n + pb_pol p) = Some v
      | PimP => exists e, nth_error tbl (pb_pol p) = Some e /\ den tbl (row_of si m (pb_idx p)) false e v
      | Pother => False
      end) (st_publics sg) (m_sec m' Spublics).
Proof. exact publics_props. Qed.
Print Assumptions C81_publics_partial.
Example C81_nonvacuous : public_codes 10 pb_tbl [pb_im; pb_cm] = Ok (pb_segs [pb_im; pb_cm]) /\
  map_publics pb_si [] [] (pb_segs [pb_im; pb_cm]) = Ok (st_pubcode (pb_sg [pb_im; pb_cm])) /\
  (Forall wf_e pb_tbl /\ (forall p, In p (si_map pb_si) -> fst (fst p) <> Stmp) /\ tables pb_si pb_m /\ pb_R (false, pb_pol pb_im)) /\
  (forall p i e, pb_R (p, i) -> nth_error pb_tbl i = Some e -> labs (pub_node pb_si) false p e /\ forall k, In k (exp_refs p e) -> pb_R k) /\
  rmap (fun m => m_sec m Spublics) (set_publics pb_si (pb_sg [pb_im; pb_cm]) pb_m) = Ok [pb_f 25; pb_f 5].
Proof. exact (conj (proj1 pb_codes) (conj (proj2 pb_codes) (conj pb_good (conj pb_refs pb_values)))). Qed.

(* With the other order it is refuted: whenever a public given by an expression comes after one that is not, the prover
   does not get past the publics, whatever the trace. publics_code has one entry for each expression, but is indexed
   with the position among all publics. *)
Theorem C81_order_refuted : forall fuel tbl si im texp sg segs m m' i j p q,
  public_codes fuel tbl (st_publics sg) = Ok segs -> map_publics si im texp segs = Ok (st_pubcode sg) ->
  i < j -> nth_error (st_publics sg) i = Some p -> pb_kind p <> PimP -> nth_error (st_publics sg) j = Some q -> pb_kind q = PimP ->
  set_publics si sg m <> Ok m'.
Proof. exact publics_wrong. Qed.
Print Assumptions C81_order_refuted.
Example C81_nonvacuous_order : public_codes 10 pb_tbl [pb_cm; pb_im] = Ok (pb_segs [pb_cm; pb_im]) /\
  map_publics pb_si [] [] (pb_segs [pb_cm; pb_im]) = Ok (st_pubcode (pb_sg [pb_cm; pb_im])) /\
  set_publics pb_si (pb_sg [pb_cm; pb_im]) pb_m = Panic.
Proof. exact (conj (proj1 pb_codes_bad) (conj (proj2 pb_codes_bad) pb_panics)). Qed.
