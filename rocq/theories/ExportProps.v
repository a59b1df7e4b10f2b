(* The export of an analysed PIL. *)
From Verif Require Import Base GlModel FrField F3gModel Cubic F3gProof ListAux PolyModel Roots PolyProof CodegenModel CodegenProof
  InterpModel VerifierModel ImModel HashModel FftpModel FftpProof BrProof FriModel FriProof PolsModel PolsProof ProverModel ProverProof
  ParModel StarkMath StarkModel StarkSrc StarkRow StarkQuot StarkEval StarkStep4 StarkTop StarkToy StageModel StarkExtend StarkStages StarkPlain StageToy.
From Verif Require Import MapModel InfoModel InfoLayout InfoCols InfoPlace InfoTop InfoRun ExportModel ExportText ExportProof ExportTotal ExportPlain ExportTop ExportToy.
From Verif Require ArgModel.
Open Scope nat_scope.
Open Scope list_scope.
Open Scope res_scope.

(* C89: the names of the columns.  A name with a dot is kept; the last "::" of any other becomes ".:" (not "."); a name
   with neither is refused.  Names without a dot stay different. *)
Theorem C89_names : forall n,
  (dotted n -> fixup_name n = Ok n) /\
  (forall ns x, n = ns ++ colon :: colon :: x -> ~ dotted n -> (forall a b, colon :: x <> a ++ colon :: colon :: b) -> fixup_name n = Ok (ns ++ dot :: colon :: x)) /\
  (~ dotted n -> (forall a b, n <> a ++ colon :: colon :: b) -> fixup_name n = Panic).
Proof. exact fixup_cases. Qed.
Print Assumptions C89_names.
Theorem C89_injective : forall n n' m, ~ dotted n -> ~ dotted n' -> fixup_name n = Ok m -> fixup_name n' = Ok m -> n = n'.
Proof. exact fixup_inj. Qed.
Print Assumptions C89_injective.
(* no name without a dot becomes the "Global.L1" that StarkInfo::new looks for; "Global::L1" becomes "Global.:L1" *)
Theorem C89_global_l1_refuted : forall n, ~ dotted n -> fixup_name n <> Ok global_l1.
Proof. exact fixup_never_l1. Qed.
Print Assumptions C89_global_l1_refuted.
Example C89_nonvacuous : ~ dotted global_cc_l1 /\ fixup_name global_cc_l1 = Ok [71; 108; 111; 98; 97; 108; 46; 58; 76; 49] /\ fixup_name global_l1 = Ok global_l1 /\ fixup_name [97] = Panic.
Proof. split; [intros H; repeat (destruct H as [H|H]; [discriminate H|]); exact H|]. split; [exact fixup_l1|]. split; reflexivity. Qed.

(* C90: the line and column of an offset into the source.  The line is one more than the number of line breaks before
   the offset, and the column counts the bytes since the last of them, for every source and every offset. *)
Theorem C90_line_and_column : forall src x, exists s, offset_to_line_col x (line_starts src) = Ok (1 + newlines (firstn x src), x - s) /\ s <= x /\
  newlines (firstn (x - s) (skipn s src)) = 0 /\ (s = 0 \/ nth_error src (s - 1) = Some 10).
Proof. exact line_of. Qed.
Print Assumptions C90_line_and_column.
Example C90_nonvacuous : let src := [97; 10; 10; 98; 99; 10] in
  map (fun x => offset_to_line_col x (line_starts src)) [0; 1; 2; 3; 4; 5; 6; 9] = [Ok (1, 0); Ok (1, 1); Ok (2, 0); Ok (3, 0); Ok (3, 1); Ok (3, 2); Ok (4, 0); Ok (4, 3)].
Proof. vm_compute. reflexivity. Qed.

(* C91: the export of an analysed PIL ends, the numbers given to the intermediate polynomials beforehand are the
   positions of their expressions, and every expression, identity and argument means what it meant in every row: the
   value of expression number k is the value of what it was made from. *)
Theorem C91_export_keeps_the_meaning : forall a, sound_pil a -> exists o ids, export a = Ok o /\ List.length (ex_exps (xp_ex o)) = total a (an_order a) /\
  Forall2 (becomes_pub ids) (pubs_of a (an_order a)) (xp_publics o) /\
  forall cm cn pubv chal numv other pubs, (forall n d, an_pubs a n = Some d -> pubs (pd_id d) = pubv n) ->
  let M := means a cm cn pubv chal numv other pubs o in
    (forall i k, assoc Nat.eqb ids i = Some k -> exists e, defines a i e /\ M e k) /\
    Forall2 (fun d i => exists e, se_sel (id_left d) = Some e /\ M e i) (of_kind a KPolynomial (an_order a)) (xp_pols o) /\
    Forall2 (means_arg a cm cn pubv chal numv other pubs o) (of_kind a KPlookup (an_order a)) (xp_lookups o) /\
    Forall2 (means_arg a cm cn pubv chal numv other pubs o) (of_kind a KPermutation (an_order a)) (xp_perms o) /\
    Forall2 (fun d x => means_all a cm cn pubv chal numv other pubs o (se_exps (id_left d)) (ArgModel.ci_pols x) /\ means_all a cm cn pubv chal numv other pubs o (se_exps (id_right d)) (ArgModel.ci_conns x))
      (of_kind a KConnect (an_order a)) (xp_conns o).
Proof. exact export_meaning. Qed.
Print Assumptions C91_export_keeps_the_meaning.
Example C91_nonvacuous : sound_pil x_an /\ export x_an = Ok x_o /\ List.length (ex_exps (xp_ex x_o)) = 4 /\ xp_pols x_o = [1; 2; 3] /\ xp_publics x_o = [mkPub PcmP 0 1].
Proof. split; [exact x_sound|]. split; [exact x_export|]. split; [reflexivity|]. split; reflexivity. Qed.

(* C92: from the analysed PIL to an accepted proof.  If a PIL without arguments has tables in which its identities are
   zero in every row, what it is exported to is proved, and the proof is accepted, unless the challenge point is in the
   evaluation domain. *)
Theorem C92_analysed_pil_is_proved_partial : forall a deg, sound_pil a -> plain_an a deg -> exists o, export a = Ok o /\
  forall perm : list Fr -> list Fr -> list Fr, (forall i s, List.length (perm i s) = 12) ->
  forall fuel workers w0 l1 ss si sg pg nq cp kp tc br0 br, starkinfo_new fuel (pil_of a deg l1 o) ss = Ok (si, sg, pg) -> pg_qs pg <> [] ->
  1 <= ss_nbits ss -> ss_nbits_ext ss <= 24 -> (forall s, si_width si s <= MAX_OPS) -> an_nconst a <= MAX_OPS -> workers <> 0 -> w0 <> 0 ->
  inputs perm w0 si cp kp tc br0 br -> rows_hold a deg cp kp -> chunks_ok si workers -> steps_ok (ss_nbits_ext ss) (tl (ss_steps ss)) -> 0 < nq ->
  exists m0 m t1 t2 t3 tr br' rc m4 t4 root4 xi tr4, start_mem si cp kp tc = Ok m0 /\ stages perm workers si sg m0 br = Ok (m, t1, t2, t3, tr, br') /\
    tree_root tc = Ok rc /\ quotient_phase perm workers si pg m tr br' = Ok (m4, t4, root4, xi, tr4) /\
    ((forall r, r < 2 ^ ss_nbits_ext ss -> val xi <> cpt (ss_nbits_ext ss) r) ->
     exists pf, stark_gen perm workers si sg pg (ss_steps ss) nq cp kp tc br = Ok pf /\ sp_publics pf = map (pub_value cp) (xp_publics o) /\
       stark_verify perm si pg (ss_steps ss) nq rc pf = Ok true).
Proof. exact analysed_proved. Qed.
Print Assumptions C92_analysed_pil_is_proved_partial.
(* two kinds of PIL are exported but cannot be proved: one with a power of numbers, which the code generator does not
   know, *)
Theorem C92_power_refuted : sound_pil x_pow /\ export x_pow = Ok x_pow_o /\ forall fuel, starkinfo_new (3 + fuel) (pil_of x_pow 2 None x_pow_o) x_ss = Panic.
Proof. exact (conj x_pow_sound (conj x_pow_export x_pow_panics)). Qed.
Print Assumptions C92_power_refuted.
(* and one with a public on a constant column, whose type the prover does not know *)
Theorem C92_constant_public_refuted : forall a o k d id, export a = Ok o -> nth_error (pubs_of a (an_order a)) k = Some d -> pd_poly d = Some (id, Constant) ->
  exists p, nth_error (xp_publics o) k = Some p /\ forall si code m i, public_value si code m i p = Panic.
Proof. exact const_public_panics. Qed.
Print Assumptions C92_constant_public_refuted.
Example C92_nonvacuous : exists tc br, sound_pil x_an /\ plain_an x_an 2 /\ export x_an = Ok x_o /\ starkinfo_new 40 (pil_of x_an 2 None x_o) x_ss = Ok (x_si, x_sg, x_pg) /\ pg_qs x_pg <> [] /\ 1 <= ss_nbits x_ss /\ ss_nbits_ext x_ss <= 24 /\
  (forall s, si_width x_si s <= MAX_OPS) /\ an_nconst x_an <= MAX_OPS /\ inputs StarkToy.ones 3 x_si g_cp g_kp tc br_new br /\ rows_hold x_an 2 g_cp g_kp /\
  chunks_ok x_si 2 /\ steps_ok (ss_nbits_ext x_ss) (tl (ss_steps x_ss)).
Proof. exact toy_export. Qed.
(* with the number itself in place of the power the machine is built *)
Example C92_nonvacuous_number : export x_eight = Ok x_eight_o /\ exists r, starkinfo_new 10 (pil_of x_eight 2 None x_eight_o) x_ss = Ok r.
Proof. exact (conj x_eight_export x_eight_ok). Qed.
