(* Tables in which the lookups, permutations and connections hold are proved. *)
From Coq Require Import Permutation.
From Verif Require Import Base GlModel FrField F3gModel Cubic F3gProof PolyModel Roots StarkSrc HashModel CodegenModel InterpModel FftpModel FftpBase BrProof FriModel FriProof PolsModel PolsProof ProverModel ProverProof VerifierModel
  StarkMath StarkModel StarkGen StarkQuot StarkStep4 StarkTop StarkDone StageModel StarkExtend StarkStages StarkPlain StarkToy StageToy NStep NGen NTop ZStage ArgStages ArgRunToy MapModel ArgHonest MixToy HonestTable GenToy.
From Verif Require ArgModel ArgGen ArgRows ArgTop.
Open Scope nat_scope.
Open Scope list_scope.
Open Scope res_scope.

(* C83: the arguments of the machine are those generated for the lookups ls, the permutations ps and the connections cs. In the table every selected
   row of a lookup is a selected row of its table, the selected rows of the two sides of a permutation are the same, each as often, connected cells are
   equal, and the other identities hold; f and t of a lookup are kept with as many components. Then the first two stages end, the third ends exactly if
   no denominator is zero, and then a proof is returned and accepted, unless the challenge point lies on the extended domain. *)
Theorem C83_table_that_holds_is_proved : forall perm : list Fr -> list Fr -> list Fr, (forall i s, length (perm i s) = 12) ->
  forall fuel gfuel workers w0 si sg tbl ids ncm md ce pg cp kp tc br0 br texp td2 td3 td4 fl ids2 ids3 ids4 s2 s3 s4 c2 c3 c4 (R2 R3 R4 RA RT : bool * nat -> Prop) pids l1 zp ac,
  workers <> 0 -> w0 <> 0 -> machine fuel gfuel si sg tbl ids ncm md ce pg -> inputs perm w0 si cp kp tc br0 br ->
  argmachine si sg tbl ids ce texp td2 td3 td4 fl ids2 ids3 ids4 s2 s3 s4 c2 c3 c4 R2 R3 R4 RA RT pids l1 zp ac -> argends si sg ce texp ids2 ->
  forall afl a0 ls a2 pu9 code2 ps cs out, generated si sg tbl l1 afl a0 ls a2 pu9 code2 ps cs out ->
  forall rest nq, (forall pu, In pu (st_pu sg) -> same_dims si ce texp pu) -> table_ok si sg tbl pids cp kp -> first_row_column si sg kp l1 ->
  (forall pi, In pi ls -> exists F T sF sT fs ts,
    ArgModel.l_f pi = Some fs /\ fs <> [] /\ tcols si sg tbl cp kp RT false fs F /\ ArgModel.l_t pi = Some ts /\ ts <> [] /\ (forall p, tcols si sg tbl cp kp RT p ts T) /\
    tsel si sg tbl cp kp RT false (ArgModel.l_selF pi) sF /\ (forall p, tsel si sg tbl cp kp RT p (ArgModel.l_selT pi) sT) /\ (forall i, i < 2 ^ si_nbits si -> (sF i = kzero \/ sF i = kone) /\ (sT i = kzero \/ sT i = kone)) /\
    forall i, i < 2 ^ si_nbits si -> sF i = kone -> exists j, j < 2 ^ si_nbits si /\ sT j = kone /\ T j = F i) ->
  (forall pi, In pi ps -> exists F T sF sT fs ts,
    ArgModel.l_f pi = Some fs /\ fs <> [] /\ tcols si sg tbl cp kp RT false fs F /\ ArgModel.l_t pi = Some ts /\ ts <> [] /\ tcols si sg tbl cp kp RT false ts T /\
    tsel si sg tbl cp kp RT false (ArgModel.l_selF pi) sF /\ tsel si sg tbl cp kp RT false (ArgModel.l_selT pi) sT /\ (forall i, i < 2 ^ si_nbits si -> (sF i = kzero \/ sF i = kone) /\ (sT i = kzero \/ sT i = kone)) /\
    Permutation (map F (filter (fun i => ArgRows.isone (sF i)) (seq 0 (2 ^ si_nbits si)))) (map T (filter (fun i => ArgRows.isone (sT i)) (seq 0 (2 ^ si_nbits si))))) ->
  (forall ci, In ci cs -> exists qs ks p con (pi : nat * nat -> nat * nat),
    ArgModel.ci_pols ci = Some qs /\ ArgModel.ci_conns ci = Some ks /\
    (forall c, c < length qs -> tcol si sg tbl cp kp RT (nth c qs 0) (p c) /\ tcol si sg tbl cp kp RT (nth c ks 0) (con c)) /\
    (forall x, fst x < length qs /\ snd x < 2 ^ si_nbits si -> fst (pi x) < length qs /\ snd (pi x) < 2 ^ si_nbits si) /\
    (forall x y, fst x < length qs /\ snd x < 2 ^ si_nbits si -> fst y < length qs /\ snd y < 2 ^ si_nbits si -> pi x = pi y -> x = y) /\
    forall c i, c < length qs -> i < 2 ^ si_nbits si -> con c i = ArgTop.lbl (kroot (si_nbits si)) (fst (pi (c, i))) (snd (pi (c, i))) /\ p c i = p (fst (pi (c, i))) (snd (pi (c, i)))) ->
  chunks_ok si workers -> steps_ok (si_nbits_ext si) rest -> 0 < nq ->
  exists m0 ma ra t1 tra bra mb k rb t2 trb brb, start_mem si cp kp tc = Ok m0 /\ stage1 perm workers si sg m0 br = Ok (ma, ra, t1, tra, bra) /\
    stage2 perm workers si sg ma ra tra bra = Ok (mb, k, rb, t2, trb, brb) /\
    ((exists x, stage3 perm workers si sg mb k rb trb brb = Ok x) <-> forall o, In o (st_pu sg ++ st_pe sg ++ st_ci sg) ->
       forall i d, i < 2 ^ si_nbits si -> ArgGen.va tbl (row_of si mb i) false (E_exp (pc_den o) false) d -> d <> kzero) /\
    forall m t3 tr br', stage3 perm workers si sg mb k rb trb brb = Ok (m, t3, tr, br') ->
      exists rc m4 t4 root4 xi tr4, tree_root tc = Ok rc /\ quotient_phase perm workers si pg m tr br' = Ok (m4, t4, root4, xi, tr4) /\
        ((forall r, r < 2 ^ si_nbits_ext si -> val xi <> cpt (si_nbits_ext si) r) ->
         exists p, stark_gen perm workers si sg pg (si_nbits_ext si :: rest) nq cp kp tc br = Ok p /\ sp_publics p = map (pub_value cp) (st_publics sg) /\
           stark_verify perm si pg (si_nbits_ext si :: rest) nq rc p = Ok true).
Proof. exact honest_table. Qed.
Print Assumptions C83_table_that_holds_is_proved.
(* A column that is found in a fixed column, its lookup as generated, in a table of two rows where all of it holds and the three stages end. *)
Example C83_nonvacuous : exists tc br m0 m, machine 40 40 y_si y_sg y_tbl y_ids 4 2 y_ce y_pg /\ inputs ones 3 y_si h_cp h_kp tc br_new br /\
  argmachine y_si y_sg y_tbl y_ids y_ce y_texp y_td2 y_td3 y_td3 40 [4; 3] [6; 7] [6; 7] 0 0 0 y_c2 y_c3 y_c3 y_R2 y_R3 y_R3 y_RA y_RT [2] 0 (fun _ => 0) (fun _ => (5, 8)) /\ argends y_si y_sg y_ce y_texp [4; 3] /\
  generated y_si y_sg y_tbl 0 60 y_start [y_look] (fst (fst y_two)) (snd (fst y_two)) (snd y_two) [] [] y_out /\
  (forall pu, In pu (st_pu y_sg) -> same_dims y_si y_ce y_texp pu) /\ table_ok y_si y_sg y_tbl [2] h_cp h_kp /\ first_row_column y_si y_sg h_kp 0 /\
  (forall pi, In pi [y_look] -> lookup_holds y_si y_sg y_tbl h_cp h_kp y_RT pi) /\ chunks_ok y_si 2 /\ steps_ok (si_nbits_ext y_si) [1] /\
  start_mem y_si h_cp h_kp tc = Ok m0 /\ stages ones 2 y_si y_sg m0 br = Ok m.
Proof. exact toy_table. Qed.
