(* A small PIL with an intermediate expression, for the example of StarkInfo::new; no part of the code. *)
From Coq Require Import String Ring Field.
From Verif Require Import Base GlModel FrField F3gModel Cubic F3gProof ListAux PolyModel Roots PolyProof CodegenModel CodegenProof
  InterpModel VerifierModel ImModel HashModel FftpModel FftpProof BrProof FriModel FriProof PolsModel PolsProof ProverModel ProverProof
  ParModel StarkModel StarkSrc StarkStep4 StarkTop StarkToy StageModel StarkStages StarkPlain StageToy InfoModel InfoCols InfoTop.
Open Scope nat_scope.
Open Scope list_scope.
Open Scope res_scope.
Add Field K_field_ij : K_field.

Definition j_exps : list expr :=
  [E_mul (E_cm 0 false) (E_cm 0 false);
   E_mul (E_exp 0 false) (E_exp 0 true);
   E_sub (E_add (E_cm 0 false) (E_cm 0 true)) (E_const 0 false);
   E_sub (E_const 0 false) (E_new OPublic (Some 0) None [])].
Definition j_pil : pil := mkPil j_exps [1; 2; 3] 1 1 (Some 2) [mkPub PcmP 0 1] [] [] [] None.
Definition j_ss : sstruct := mkSS 1 2 [2; 1].
Definition j_out := starkinfo_new 40 j_pil j_ss.
Definition j_si : sinfo := match j_out with Ok (a, _, _) => a | _ => g_si end.
Definition j_sg : stageprog := match j_out with Ok (_, a, _) => a | _ => g_sg end.
Definition j_pg : program := match j_out with Ok (_, _, a) => a | _ => g_pg end.
Lemma j_new : starkinfo_new 40 j_pil j_ss = Ok (j_si, j_sg, j_pg). Proof. vm_compute. reflexivity. Qed.
Lemma j_parts : si_nbits j_si = 1 /\ si_nbits_ext j_si = 2 /\ si_nconst j_si = 1 /\ si_width j_si Scm1_n = 1 /\ si_width j_si Scm3_n = 1 /\ st_publics j_sg = [mkPub PcmP 0 1] /\ pg_qs j_pg = [2].
Proof. vm_compute. repeat split; reflexivity. Qed.
Lemma j_width s : si_width j_si s <= MAX_OPS.
Proof. apply g_ops. destruct s; vm_compute; lia. Qed.
Lemma j_refs p i e k : nth_error j_exps i = Some e -> In k (exp_refs p e) -> i = 1 /\ snd k = 0.
Proof.
  intros H Hk. destruct i as [|[|[|[|i]]]]; cbn in H; try (destruct i; discriminate H); injection H as <-; cbn in Hk; try contradiction. split; [reflexivity|]. destruct Hk as [<-|[<-|[]]]; reflexivity.
Qed.
Lemma j_plain : plain_pil j_pil.
Proof.
  constructor.
  - repeat split.
  - cbn [j_pil pil_exps pil_ncm pil_nconst pil_publics List.length j_exps]. repeat (constructor; [repeat (constructor; [cbn; try lia; try (intros ? X; injection X as <-; lia)|]); try constructor|]); constructor.
  - repeat constructor; cbn; lia.
  - repeat constructor. cbn. intros d X. injection X as <-. lia.
  - intros j e Hp He. assert (j = 0).
    { destruct Hp as [i e' j X Y|i e' p j _ X Y]; [exact (proj2 (j_refs _ _ _ _ X Y)) | exact (proj2 (j_refs _ _ _ _ X Y))]. }
    subst j. cbn in He. injection He as <-. repeat constructor.
Qed.
Lemma j_table : table_ok j_si j_sg (pil_exps j_pil) (pil_ids j_pil) g_cp g_kp.
Proof.
  destruct j_parts as [B1 [_ [_ [_ [_ [B2 _]]]]]]. intros i ch j v Hi Hj Hd. rewrite B1 in Hi. cbn [j_pil pil_exps pil_ids] in *.
  set (rho := table_row j_si g_cp g_kp (map (pub_value g_cp) (st_publics j_sg)) ch i) in *.
  assert (T2 : val (of_k (kconst t_two)) = kconst t_two) by apply of_k_val. assert (T0 : val (of_k (kconst f0)) = kzero) by (rewrite of_k_val; apply kconst_0).
  assert (A2 : val (rho (N_new Nconst 0 None false)) = kconst t_two).
  { unfold rho, table_row. cbn [n_ty n_id n_prime N_new nPols g_kp Nat.ltb Nat.leb p_array]. unfold nrow. destruct i as [|[|i]]; [exact T2 | exact T2 | cbn in Hi; lia]. }
  assert (A3 : val (rho (N_new Npublic 0 None false)) = kconst t_two).
  { unfold rho, table_row. cbn [n_ty n_id N_new]. rewrite of_k_val, B2. cbn [nth map]. unfold pub_value. cbn [g_cp p_array pb_pol pb_idx cellv nth]. apply val_from. }
  assert (W : val (rho (N_new Ncm 0 None false)) = kzero /\ val (rho (N_new Ncm 0 None true)) = kconst t_two \/ val (rho (N_new Ncm 0 None false)) = kconst t_two /\ val (rho (N_new Ncm 0 None true)) = kzero).
  { unfold rho, table_row. cbn [n_ty n_id n_prime N_new nPols g_cp Nat.ltb Nat.leb p_array]. unfold nrow. rewrite B1. destruct i as [|[|i]]; [left; split; [exact T0 | exact T2] | right; split; [exact T2 | exact T0] | cbn in Hi; lia]. }
  clearbody rho. destruct Hj as [<-|[<-|[<-|[]]]].
  - assert (D : den j_exps rho false (E_exp 1 false) (e_mul (e_mul (rho (N_new Ncm 0 None false)) (rho (N_new Ncm 0 None false))) (e_mul (rho (N_new Ncm 0 None true)) (rho (N_new Ncm 0 None true))))).
    { eapply D_exp; [reflexivity | reflexivity | reflexivity | reflexivity|]. eapply D_mul; [reflexivity | reflexivity | |];
        (eapply D_exp; [reflexivity | reflexivity | reflexivity | reflexivity|]; eapply D_mul; [reflexivity | reflexivity | |]; apply (D_cm _ _ _ (E_cm 0 false)); reflexivity). }
    rewrite (den_fun _ _ _ _ _ Hd _ D), !val_mul. destruct W as [[-> ->]|[-> ->]]; ring.
  - assert (D : den j_exps rho false (E_exp 2 false) (e_sub (e_add (rho (N_new Ncm 0 None false)) (rho (N_new Ncm 0 None true))) (rho (N_new Nconst 0 None false)))).
    { eapply D_exp; [reflexivity | reflexivity | reflexivity | reflexivity|]. eapply D_sub; [reflexivity | reflexivity | |apply (D_const _ _ _ (E_const 0 false)); reflexivity].
      eapply D_add; [reflexivity | reflexivity | |]; [apply (D_cm _ _ _ (E_cm 0 false)) | apply (D_cm _ _ _ (E_cm 0 true))]; reflexivity. }
    rewrite (den_fun _ _ _ _ _ Hd _ D), val_sub, val_add, A2. destruct W as [[-> ->]|[-> ->]]; ring.
  - assert (D : den j_exps rho false (E_exp 3 false) (e_sub (rho (N_new Nconst 0 None false)) (rho (N_new Npublic 0 None false)))).
    { eapply D_exp; [reflexivity | reflexivity | reflexivity | reflexivity|]. eapply D_sub; [reflexivity | reflexivity | apply (D_const _ _ _ (E_const 0 false)); reflexivity | apply (D_public _ _ _ (E_new OPublic (Some 0) None [])); reflexivity]. }
    rewrite (den_fun _ _ _ _ _ Hd _ D), val_sub, A2, A3. ring.
Qed.
Lemma j_chunks : chunks_ok j_si 2.
Proof. destruct j_parts as [_ [B _]]. eexists. split; [reflexivity|]. rewrite B. left. apply Nat.leb_le. vm_compute. reflexivity. Qed.
Theorem toy_pil : exists tc br, plain_pil j_pil /\ starkinfo_new 40 j_pil j_ss = Ok (j_si, j_sg, j_pg) /\ pg_qs j_pg <> [] /\ 1 <= ss_nbits j_ss /\ ss_nbits_ext j_ss <= 24 /\
  (forall s, si_width j_si s <= MAX_OPS) /\ pil_nconst j_pil <= MAX_OPS /\ inputs StarkToy.ones 3 j_si g_cp g_kp tc br_new br /\ table_ok j_si j_sg (pil_exps j_pil) (pil_ids j_pil) g_cp g_kp /\
  chunks_ok j_si 2 /\ steps_ok (ss_nbits_ext j_ss) (tl (ss_steps j_ss)) /\ si_width j_si Scm3_n = 1.
Proof.
  destruct j_parts as [B1 [B2 [B3 [B4 [B5 [B6 B7]]]]]].
  assert (S1 : steps_ok (ss_nbits_ext j_ss) (tl (ss_steps j_ss))).
  { cbn [steps_ok j_ss ss_nbits_ext ss_steps tl]. split; [lia|]. split; [lia|]. split; [|exact Coq.Init.Logic.I]. apply Nat.leb_le. vm_compute. reflexivity. }
  destruct (setup_total StarkToy.ones 3 1 2 1 g_kp br_new ones_len) as [tc [br [Es Nb]]]; try lia; [apply g_ops; lia | apply g_shaped; reflexivity | cbn; lia | reflexivity | reflexivity | exact new_nice|].
  exists tc, br. split; [exact j_plain|]. split; [exact j_new|]. split; [rewrite B7; discriminate|]. split; [cbn; lia|]. split; [cbn; lia|]. split; [exact j_width|]. split; [apply g_ops; cbn; lia|].
  split. { constructor; [| | exact new_nice | rewrite B1, B2, B3; exact Es]; (split; [apply g_shaped; reflexivity|]); (split; [cbn; lia|]); rewrite ?B1, ?B4; repeat split; reflexivity. }
  split; [exact j_table|]. split; [exact j_chunks|]. split; [exact S1 | exact B5].
Qed.
