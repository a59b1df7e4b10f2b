(* From the analysed PIL to an accepted proof. *)
From Verif Require Import Base GlModel FrField F3gModel Cubic F3gProof ListAux PolyModel Roots PolyProof CodegenModel CodegenProof
  InterpModel VerifierModel ImModel HashModel FftpModel FftpProof BrProof FriModel FriProof PolsModel PolsProof ProverModel ProverProof
  ParModel StarkMath StarkModel StarkSrc StarkRow StarkQuot StarkEval StarkStep4 StarkTop StageModel StarkExtend StarkStages StarkPlain.
From Verif Require Import MapModel InfoModel InfoLayout InfoCols InfoPlace InfoTop InfoRun ExportModel ExportProof ExportTotal ExportPlain.
Open Scope nat_scope.
Open Scope list_scope.
Open Scope res_scope.

Theorem analysed_proved : forall a deg, sound_pil a -> plain_an a deg -> exists o, export a = Ok o /\
  forall perm : list Fr -> list Fr -> list Fr, (forall i s, List.length (perm i s) = 12) ->
  forall fuel workers w0 l1 ss si sg pg nq cp kp tc br0 br, starkinfo_new fuel (pil_of a deg l1 o) ss = Ok (si, sg, pg) -> pg_qs pg <> [] ->
  1 <= ss_nbits ss -> ss_nbits_ext ss <= 24 -> (forall s, si_width si s <= MAX_OPS) -> an_nconst a <= MAX_OPS -> workers <> 0 -> w0 <> 0 ->
  inputs perm w0 si cp kp tc br0 br -> rows_hold a deg cp kp -> chunks_ok si workers -> steps_ok (ss_nbits_ext ss) (tl (ss_steps ss)) -> 0 < nq ->
  exists m0 m t1 t2 t3 tr br' rc m4 t4 root4 xi tr4, start_mem si cp kp tc = Ok m0 /\ stages perm workers si sg m0 br = Ok (m, t1, t2, t3, tr, br') /\
    tree_root tc = Ok rc /\ quotient_phase perm workers si pg m tr br' = Ok (m4, t4, root4, xi, tr4) /\
    ((forall r, r < 2 ^ ss_nbits_ext ss -> val xi <> cpt (ss_nbits_ext ss) r) ->
     exists pf, stark_gen perm workers si sg pg (ss_steps ss) nq cp kp tc br = Ok pf /\ sp_publics pf = map (pub_value cp) (xp_publics o) /\
       stark_verify perm si pg (ss_steps ss) nq rc pf = Ok true).
Proof.
  intros a deg HS HP. destruct (export_total a HS) as [o [E _]]. exists o. split; [exact E|].
  destruct (export_inv a o E) as [ids [Hids Hinv]]. pose proof (all_made a ids o Hids E) as Hmade.
  intros perm perm_len fuel workers w0 l1 ss si sg pg nq cp kp tc br0 br H Hq H1 H2 H3 H4 H5 H6 HI HR Hc Hs Hn.
  pose proof (plain_of a deg o ids HP HS Hids Hinv Hmade l1) as HPP.
  destruct (new_layout _ _ _ _ _ _ HPP H) as [ce [c4 [q [rest [Hl [Hqd [D1 [D2 [D3 [Hce [Hc4 [H3' [Hg [X1 [X2 [X3 [X4 [X6 [X7 [X8 X9]]]]]]]]]]]]]]]]]]]].
  cbn [pil_of pil_deg] in D1. injection D1 as D1. destruct (pa_rest _ _ _ _ _ _ _ _ Hl) as [R1 [R2 [R3 R4]]].
  assert (HT : table_ok si sg (ex_exps (xp_ex o)) (xp_pols o) cp kp).
  { apply (table_of a deg o ids si sg cp kp HP HS Hids Hinv X1). rewrite D1 in HR. assert (EB : si_nbits si = ss_nbits ss) by assumption. rewrite EB. exact HR. }
  exact (pil_proved perm perm_len fuel workers w0 (pil_of a deg l1 o) ss si sg pg nq cp kp tc br0 br HPP H Hq H1 H2 H3 H4 H5 H6 HI HT Hc Hs Hn).
Qed.
