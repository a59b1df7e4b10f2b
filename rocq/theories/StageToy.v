(* The small machine of StarkToy with its tables, for the example of the whole prover; no part of the code. *)
From Coq Require Import Ring Field Arith.
From Verif Require Import Base GlModel FrField F3gModel Cubic F3gProof ListAux PolyModel Roots PolyProof FftProof FftTop FriMath CodegenModel CodegenProof
  InterpModel InterpProof VerifierModel VerifierProof ImModel HashModel FftpModel FftpProof FftpBase FftpTop BrProof FriModel FriProof PolsModel PolsProof ProverModel ProverProof
  ParModel ParProof StarkMath StarkModel StarkGen StarkSrc StarkPoly StarkRow StarkQuot StarkEval StarkStep4 StarkTop StarkDone StarkToy StageModel StarkExtend StarkStages StarkPlain.
Open Scope nat_scope.
Open Scope list_scope.
Open Scope res_scope.
Add Field K_field_stoy : K_field.

Definition g_si : sinfo := mkSI [(Scm1_2ns, 0, 1); (Scm4_2ns, 0, 3); (Scm1_n, 0, 1)] [2] [0; 1] []
  (fun s => match s with Scm1_2ns | Scm1_n => 1 | Scm4_2ns | Scm4_n | Sq_2ns | Sf_2ns => 3 | _ => 0 end) 1 3 1 2.
Definition g_pg : program := match gen_program 20 g_si t_ce with Ok p => p | _ => mkP (mkSeg [] 0) (mkSeg [] 0) [] [] (mkEV [] []) [] end.
Definition g_sg : stageprog := mkSG [mkPub PcmP 0 1] [] (mkSeg [] 0) (mkSeg [] 0) (mkSeg [] 0) [] [] [] (fun _ => Panic) 1.
Definition g_cp : pols := mkPols 1 2 [[f0; t_two]].
Definition g_kp : pols := mkPols 1 2 [[t_two; t_two]].

Lemma g_prog : gen_program 20 g_si t_ce = Ok g_pg. Proof. vm_compute. reflexivity. Qed.
Local Opaque t_ce g_pg.
Lemma g_ops k : k <= 3 -> k <= MAX_OPS.
Proof. intros H. etransitivity; [exact H|]. apply Nat.leb_le. vm_compute. reflexivity. Qed.
Lemma g_machine : machine 10 20 g_si g_sg t_tbl [0; 1; 2] 1 2 t_ce g_pg.
Proof.
  destruct t_parts as [I1 I2]. constructor.
  - constructor; try rewrite I1; try rewrite I2; cbn [g_si g_sg st_publics si_nbits si_nbits_ext si_qdim si_width si_cm_2ns si_map length].
    + lia.
    + exact t_con.
    + split; [discriminate|]. cbn. lia.
    + exact g_prog.
    + split; [repeat constructor|]. intros p.
      repeat match goal with
      | |- Forall _ _ => constructor
      | |- labs _ _ _ _ => constructor
      end; cbn; try exact Logic.I; intros j Ej; injection Ej as <-; cbn; lia.
    + repeat constructor.
    + left. reflexivity.
    + repeat split; reflexivity.
    + intros p Hp. destruct p as [|p]; [|cbn in Hp; lia]. exists 1. split; reflexivity.
    + intros E. discriminate E.
  - cbn. lia.
  - rewrite I1. constructor.
    + intros a b [E|[E|[E|[]]]]; injection E as <- <-; (split; [reflexivity|]); apply g_ops; cbn; lia.
    + apply g_ops. cbn. lia.
    + split; [reflexivity|]. apply g_ops. cbn. lia.
    + intros c Hc. cbn in Hc. replace c with 0 by lia. exists Scm1_n, Scm1_2ns, 0, 1, 0. split; [now left|]. split; [reflexivity|]. split; [reflexivity|]. split; [reflexivity|]. split; [now left | cbn; lia].
  - constructor.
  - intros c p s pos dim Hc. cbn in Hc. lia.
  - intros c p s pos dim Hc. cbn in Hc. lia.
Qed.
Lemma g_shaped l : length l = 2 -> shaped (mkPols 1 2 [l]).
Proof. intros H. split; [reflexivity|]. repeat constructor. cbn [p_n]. lia. Qed.
Lemma g_plain : plain g_si g_sg 1 t_ce.
Proof.
  destruct t_parts as [I1 I2]. constructor; try (repeat split; reflexivity); try exact I1.
  - intros c Hc. replace c with 0 by lia. reflexivity.
  - repeat constructor; cbn; lia.
Qed.
Lemma g_table : table_ok g_si g_sg t_tbl [0; 1; 2] g_cp g_kp.
Proof.
  intros i ch j v Hi Hj Hd. set (rho := table_row g_si g_cp g_kp (map (pub_value g_cp) (st_publics g_sg)) ch i) in *.
  assert (T2 : val (of_k (kconst t_two)) = kconst t_two) by apply of_k_val. assert (T0 : val (of_k (kconst f0)) = kzero) by (rewrite of_k_val; apply kconst_0).
  assert (A2 : val (rho (N_new Nconst 0 None false)) = kconst t_two).
  { unfold rho, table_row. cbn [n_ty n_id n_prime N_new nPols g_kp Nat.ltb Nat.leb p_array]. destruct i as [|[|i]]; [exact T2 | exact T2 | cbn in Hi; lia]. }
  assert (A3 : val (rho (N_new Npublic 0 None false)) = kconst t_two).
  { unfold rho, table_row. cbn [n_ty n_id N_new]. rewrite of_k_val. cbn [nth map g_sg st_publics]. unfold pub_value. cbn [g_cp p_array pb_pol pb_idx cellv nth]. apply val_from. }
  assert (W : val (rho (N_new Ncm 0 None false)) = kzero /\ val (rho (N_new Ncm 0 None true)) = kconst t_two \/ val (rho (N_new Ncm 0 None false)) = kconst t_two /\ val (rho (N_new Ncm 0 None true)) = kzero).
  { unfold rho, table_row. cbn [n_ty n_id n_prime N_new nPols g_cp Nat.ltb Nat.leb p_array]. destruct i as [|[|i]]; [left; split; [exact T0 | exact T2] | right; split; [exact T2 | exact T0] | cbn in Hi; lia]. }
  clearbody rho. destruct Hj as [<-|[<-|[<-|[]]]].
  - assert (D : den t_tbl rho false (E_exp 0 false) (e_mul (rho (N_new Ncm 0 None false)) (rho (N_new Ncm 0 None true)))).
    { eapply D_exp; [reflexivity | reflexivity | reflexivity | reflexivity|]. eapply D_mul; [reflexivity | reflexivity | |]; [apply (D_cm _ _ _ (E_cm 0 false)) | apply (D_cm _ _ _ (E_cm 0 true))]; reflexivity. }
    rewrite (den_fun _ _ _ _ _ Hd _ D), val_mul. destruct W as [[-> ->]|[-> ->]]; ring.
  - assert (D : den t_tbl rho false (E_exp 1 false) (e_sub (e_add (rho (N_new Ncm 0 None false)) (rho (N_new Ncm 0 None true))) (rho (N_new Nconst 0 None false)))).
    { eapply D_exp; [reflexivity | reflexivity | reflexivity | reflexivity|]. eapply D_sub; [reflexivity | reflexivity | |apply (D_const _ _ _ (E_const 0 false)); reflexivity].
      eapply D_add; [reflexivity | reflexivity | |]; [apply (D_cm _ _ _ (E_cm 0 false)) | apply (D_cm _ _ _ (E_cm 0 true))]; reflexivity. }
    rewrite (den_fun _ _ _ _ _ Hd _ D), val_sub, val_add, A2. destruct W as [[-> ->]|[-> ->]]; ring.
  - assert (D : den t_tbl rho false (E_exp 2 false) (e_sub (rho (N_new Nconst 0 None false)) (rho (N_new Npublic 0 None false)))).
    { eapply D_exp; [reflexivity | reflexivity | reflexivity | reflexivity|]. eapply D_sub; [reflexivity | reflexivity | apply (D_const _ _ _ (E_const 0 false)); reflexivity | apply (D_public _ _ _ (E_new OPublic (Some 0) None [])); reflexivity]. }
    rewrite (den_fun _ _ _ _ _ Hd _ D), val_sub, A2, A3. ring.
Qed.
Lemma g_chunks : chunks_ok g_si 2.
Proof. eexists. split; [reflexivity|]. cbn [g_si si_nbits_ext]. left. apply Nat.leb_le. vm_compute. reflexivity. Qed.
Lemma rounds1 pub r1 r2 r3 ch tr : first_rounds ones pub r1 r2 r3 ch tr -> all1 tr.
Proof.
  intros [ta [tb [tc [td [te [tf [tg [c0 [c1 [c2 [c3 [E1 [E2 [E3 [E4 [E5 [E6 [E7 [E8 _]]]]]]]]]]]]]]]]]]].
  assert (A1 : all1 ta) by (refine (elems1 _ tr_new ta _ E1); constructor). assert (A2 := put1 _ _ _ A1 E2).
  destruct (challenge1 _ _ _ A2 E3) as [_ A3]. destruct (challenge1 _ _ _ A3 E4) as [_ A4]. assert (A5 := put1 _ _ _ A4 E5).
  destruct (challenge1 _ _ _ A5 E6) as [_ A6]. destruct (challenge1 _ _ _ A6 E7) as [_ A7]. exact (put1 _ _ _ A7 E8).
Qed.

Theorem toy_gen : exists tc br rc p, machine 10 20 g_si g_sg t_tbl [0; 1; 2] 1 2 t_ce g_pg /\ inputs ones 3 g_si g_cp g_kp tc br_new br /\ plain g_si g_sg 1 t_ce /\
  table_ok g_si g_sg t_tbl [0; 1; 2] g_cp g_kp /\ chunks_ok g_si 2 /\ steps_ok (si_nbits_ext g_si) [1] /\
  tree_root tc = Ok rc /\ stark_gen ones 2 g_si g_sg g_pg [2; 1] 3 g_cp g_kp tc br = Ok p /\ sp_publics p = [e_from t_two] /\ stark_verify ones g_si g_pg [2; 1] 3 rc p = Ok true.
Proof.
  assert (S1 : steps_ok (si_nbits_ext g_si) [1]).
  { cbn [steps_ok g_si si_nbits_ext]. split; [lia|]. split; [lia|]. split; [|exact Logic.I]. apply Nat.leb_le. vm_compute. reflexivity. }
  destruct (setup_total ones 3 1 2 1 g_kp br_new ones_len) as [tc [br [Es Nb]]]; try lia; [apply g_ops; lia | apply g_shaped; reflexivity | cbn; lia | reflexivity | reflexivity | exact new_nice|].
  assert (HI : inputs ones 3 g_si g_cp g_kp tc br_new br).
  { constructor; [| | exact new_nice | exact Es]; (split; [apply g_shaped; reflexivity|]); (split; [cbn; lia|]); repeat split; reflexivity. }
  destruct (plain_complete ones 10 20 2 3 g_si g_sg t_tbl [0; 1; 2] 1 2 t_ce g_pg g_cp g_kp tc br_new br [1] 3 ones_len ltac:(discriminate) ltac:(discriminate) g_machine HI g_plain g_table g_chunks S1 ltac:(lia))
    as [rc [m0 [m [t1 [t2 [t3 [tr [br' [m4 [t4 [root4 [xi [tr4 [R1 [R2 [R3 [R4 R5]]]]]]]]]]]]]]]]].
  assert (A : all1 tr).
  { destruct (plain_stages ones ones_len 10 20 2 3 g_si g_sg t_tbl [0; 1; 2] 1 2 t_ce g_pg g_cp g_kp tc br_new br ltac:(discriminate) ltac:(discriminate) g_machine HI g_plain m0 R2) as [m' [u1 [u2 [u3 [tr' [b' [X1 [X2 [X3 [X4 [X5 X6]]]]]]]]]]].
    assert (Bp : Forall vbase (m_sec m' Spublics)).
    { rewrite X4. apply Forall_forall. intros x Hx. apply in_map_iff in Hx. destruct Hx as [p [<- _]]. eexists. reflexivity. }
    destruct (stages_mem ones ones_len 10 20 2 3 g_si g_sg t_tbl [0; 1; 2] 1 2 t_ce g_pg g_cp g_kp tc br_new br m0 m' u1 u2 u3 tr' b' ltac:(discriminate) ltac:(discriminate) g_machine HI R2 X1 X5 X6)
      as [r1 [r2 [r3 [rc' [_ [_ [_ [_ [_ [_ [F _]]]]]]]]]]]; [eapply Forall_impl; [|exact Bp]; exact vbase_wf | intros _; eapply Forall_impl; [|exact Bp]; exact vbase_d3|].
    rewrite X1 in R3. apply ok_inj in R3. injection R3 as _ _ _ _ <- _. exact (rounds1 _ _ _ _ _ _ F). }
  pose proof (t_xi _ _ _ _ _ _ _ _ _ _ _ A R4). subst xi. destruct (R5 (fun r _ => t_out r)) as [p [P1 [P2 P3]]].
  exists tc, br, rc, p. split; [exact g_machine|]. split; [exact HI|]. split; [exact g_plain|]. split; [exact g_table|]. split; [exact g_chunks|]. split; [exact S1|]. split; [exact R1|]. split; [exact P1|]. split; [exact P2 | exact P3].
Qed.

(* the start memory of the machine, for the example of one commitment *)
Definition g_m : mem := mkM (fun s => match s with Scm1_n => map e_from [f0; t_two] | Scm1_2ns => repeat e_ZERO 4 | _ => [] end) [] [] (fun _ => Panic).
Lemma toy_commit : (forall i s, length (ones i s) = 12) /\ 3 <> 0 /\ si_width g_si Scm1_n <= MAX_OPS /\ 1 <= si_nbits g_si <= si_nbits_ext g_si /\ si_nbits_ext g_si <= 24 /\
  length (m_sec g_m Scm1_n) = 2 ^ si_nbits g_si * si_width g_si Scm1_n /\ Forall vbase (m_sec g_m Scm1_n) /\ length (m_sec g_m Scm1_2ns) = 2 ^ si_nbits_ext g_si * si_width g_si Scm1_n /\
  Forall vbase [e_ZERO] /\ nice br_new /\ TranscriptProof.wf tr_new.
Proof.
  split; [exact ones_len|]. split; [discriminate|]. split; [apply g_ops; cbn; lia|]. split; [cbn; lia|]. split; [cbn; lia|]. split; [reflexivity|].
  split; [constructor; [eexists; reflexivity|]; constructor; [eexists; reflexivity | constructor]|]. split; [reflexivity|].
  split; [constructor; [eexists; reflexivity | constructor]|]. split; [exact new_nice | exact TranscriptProof.new_wf].
Qed.
Lemma toy_setup : (forall i s, length (ones i s) = 12) /\ 3 <> 0 /\ 1 <= 1 <= 2 /\ 2 <= 31 /\ 1 <= MAX_OPS /\ shaped g_cp /\ 0 < nPols g_cp /\ p_n g_cp = 2 ^ 1 /\ nPols g_cp = 1 /\ nice br_new.
Proof.
  split; [exact ones_len|]. split; [discriminate|]. split; [lia|]. split; [lia|]. split; [apply g_ops; lia|]. split; [apply g_shaped; reflexivity|]. split; [cbn; lia|]. split; [reflexivity|]. split; [reflexivity | exact new_nice].
Qed.
