(* A small machine for the examples: one committed column with a next-row constraint, one fixed column and one
   public, two rows; no part of the code. *)
From Coq Require Import Ring Field Arith.
From Verif Require Import Base GlModel FrField F3gModel Cubic F3gProof ListAux PolyModel Roots PolyProof FftProof FftTop FriMath CodegenModel CodegenProof
  InterpModel InterpProof VerifierModel VerifierProof ImModel ImProof HashModel FftpModel FftpProof BrProof FriModel FriProof ProverModel ProverProof ParModel ParProof
  StarkMath StarkModel StarkGen StarkSrc StarkPoly StarkRow StarkQuot StarkEval StarkStep4 StarkFri StarkStep5 StarkCheck StarkTop StarkDone.
From Verif Require MerkleProof.
Open Scope nat_scope.
Open Scope list_scope.
Open Scope res_scope.
Add Field K_field_toy : K_field.

(* the column a is (0, 2), k is (2, 2), the public is 2: a a' = 0, a + a' = k, k = public *)
Definition t_tbl : list expr :=
  [E_mul (E_cm 0 false) (E_cm 0 true); E_sub (E_add (E_cm 0 false) (E_cm 0 true)) (E_const 0 false);
   E_sub (E_const 0 false) (E_new OPublic (Some 0) None [])].
Definition t_si : sinfo := mkSI [(Scm1_2ns, 0, 1); (Scm4_2ns, 0, 3)] [] [0; 1] []
  (fun s => match s with Scm1_2ns => 1 | Scm4_2ns | Sq_2ns | Sf_2ns => 3 | _ => 0 end) 1 3 1 2.
Definition t_pg : program := match (do c <- gen_constraint 10 t_tbl [0; 1; 2] 1 2; gen_program 20 t_si c) with Ok p => p | _ => mkP (mkSeg [] 0) (mkSeg [] 0) [] [] (mkEV [] []) [] end.
Definition t_ce : cexp := match gen_constraint 10 t_tbl [0; 1; 2] 1 2 with Ok c => c | _ => mkCE [] [] 0 [] 0 end.
Definition t_x (r : nat) : Fr := fmul SHIFT (fpow (root 2) r).
Definition t_two : Fr := fadd f1 f1.
(* the polynomials 1 - x and 2 *)
Definition t_pcm (c : nat) : list K := [kone; kneg kone].
Definition t_pconst (c : nat) : list K := [kconst t_two; kzero].
Definition t_one : F3G := e_new f1 f1 f1.
Definition t_m : mem := mkM (fun s => match s with
    | Scm1_2ns => map (fun r => e_from (fsub f1 (t_x r))) (seq 0 4)
    | Sconst_2ns => map (fun r => e_from t_two) (seq 0 4)
    | Sx_2ns => ext_points (e_from (root 2)) (2 ^ 2)
    | Schallenge => [t_one; t_one; t_one; t_one; e_ZERO; e_ZERO; e_ZERO; e_ZERO]
    | Sq_2ns | Sf_2ns | Scm4_2ns => repeat e_ZERO 12
    | Spublics => [e_from t_two]
    | _ => []
    end) [] [] (build_Zh_Inv 1 1 0).
(* a function standing for Poseidon *)
Definition ones (i s : list Fr) : list Fr := repeat f1 12.

Lemma t_cpt r : kconst (t_x r) = cpt 2 r.
Proof. unfold t_x, cpt, K_shift, kroot. rewrite kconst_mul, kconst_pow. reflexivity. Qed.
Lemma t_zeros : Forall (fun v => v = e_ZERO) (repeat e_ZERO 12). Proof. cbn [repeat]. repeat constructor. Qed.
Lemma zero_base : vbase e_ZERO. Proof. now exists f0. Qed.

Lemma base_of v : wf v -> d3 v = false -> vbase v.
Proof. destruct v as [a b c d]. unfold F3gProof.wf. cbn. intros H ->. destruct (H eq_refl) as [-> ->]. now exists a. Qed.
Lemma base_mul a b : vbase a -> vbase b -> vbase (e_mul a b).
Proof.
  intros A B. apply base_of; [apply wf_mul; now apply vbase_wf|]. rewrite d3_mul, (vbase_d3 a A), (vbase_d3 b B). reflexivity.
Qed.
Lemma base_square a : vbase a -> vbase (e_square a).
Proof. intros A. destruct A as [x ->]. eexists. unfold e_square. cbn. reflexivity. Qed.
Lemma exp_base x e : vbase (e_exp (e_from x) (Z.of_nat e)).
Proof.
  destruct (Z.of_nat e) as [|p|p]; cbn [e_exp]; [now exists f1 | | now exists f1].
  induction p as [p IH|p IH|]; cbn [e_exp_pos]; [apply base_mul; [now apply base_square | now exists x] | now apply base_square | now exists x].
Qed.

Lemma t_con : gen_constraint 10 t_tbl [0; 1; 2] 1 2 = Ok t_ce. Proof. vm_compute. reflexivity. Qed.
Lemma t_prog : gen_program 20 t_si t_ce = Ok t_pg. Proof. vm_compute. reflexivity. Qed.
Lemma t_parts : ce_im t_ce = [] /\ ce_qs t_ce = [1]. Proof. vm_compute. split; reflexivity. Qed.
Local Opaque t_ce t_pg.

Lemma t_cfg : stark_cfg 10 20 t_si t_tbl [0; 1; 2] 1 2 t_ce t_pg (length (m_sec t_m Spublics)).
Proof.
  destruct t_parts as [I1 I2]. constructor; try rewrite I1; try rewrite I2; cbn [t_si si_nbits si_nbits_ext si_qdim si_width si_cm_2ns si_map length].
  - lia.
  - exact t_con.
  - split; [discriminate|]. cbn. lia.
  - exact t_prog.
  - split; [repeat constructor|]. intros p.
    repeat match goal with
    | |- Forall _ _ => constructor
    | |- labs _ _ _ _ => constructor
    end; cbn; try exact Logic.I; intros j Ej; injection Ej as <-; cbn; lia.
  - repeat constructor.
  - left. reflexivity.
  - repeat split; reflexivity.
  - intros p Hp. destruct p as [|p]; [|cbn in Hp; lia]. exists 1. split; reflexivity.
  - intros E. discriminate E.
Qed.
Lemma t_mem : stark_mem t_si (1 + length (ce_im t_ce)) t_pcm t_pconst t_m.
Proof.
  destruct t_parts as [I1 I2]. rewrite I1. cbn [length Nat.add].
  assert (B1 : Forall vbase (m_sec t_m Scm1_2ns)) by (apply Forall_forall; intros v Hv; apply in_map_iff in Hv; destruct Hv as [r [<- _]]; eexists; reflexivity).
  assert (B2 : Forall vbase (m_sec t_m Sconst_2ns)) by (apply Forall_forall; intros v Hv; apply in_map_iff in Hv; destruct Hv as [r [<- _]]; eexists; reflexivity).
  assert (B3 : Forall vbase (m_sec t_m Sx_2ns)).
  { apply Forall_forall; intros v Hv. apply in_map_iff in Hv. destruct Hv as [r [<- _]]. apply base_mul; [now exists SHIFT | apply exp_base]. }
  constructor; cbn [t_si si_nbits si_nbits_ext si_qdim si_width].
  - intros c Hc. replace c with 0 by lia. split; [reflexivity|]. exists 0, Scm1_2ns, 0, 1. split; [reflexivity|]. split; [reflexivity|]. split; [now left|].
    constructor; [now left | cbn; lia | reflexivity | exact B1|]. intros r Hr. cbn [t_si si_width]. unfold elem. cbn [Nat.eqb]. rewrite Nat.mul_1_r. cbn [Nat.add t_m m_sec].
    rewrite (nth_indep _ _ ((fun r => e_from (fsub f1 (t_x r))) 0)) by (rewrite map_length, seq_length; exact Hr). rewrite (map_nth (fun r => e_from (fsub f1 (t_x r)))), seq_nth by exact Hr.
    rewrite val_from, kconst_sub, kconst_1, t_cpt. unfold t_pcm. cbn [peval Nat.add t_si si_nbits_ext]. ring.
  - intros c Hc. cbn in Hc. replace c with 0 by lia. split; [reflexivity|].
    constructor; [now left | cbn; lia | reflexivity | exact B2|]. intros r Hr. cbn [t_si si_nconst]. unfold elem. cbn [Nat.eqb]. rewrite Nat.mul_1_r. cbn [Nat.add t_m m_sec].
    rewrite (nth_indep _ _ ((fun r : nat => e_from t_two) 0)) by (rewrite map_length, seq_length; exact Hr). rewrite (map_nth (fun r : nat => e_from t_two) _ 0).
    rewrite val_from. unfold t_pconst. cbn [peval]. ring.
  - split; [|split].
    + split; [|split; [intros E; discriminate E | reflexivity]]. intros s Hs. cbn in Hs.
      assert (G : forall l, Forall vbase l -> Forall (fun v => d3 v = false) l) by (intros l; apply Forall_impl; exact vbase_d3).
      destruct Hs as [<-|[<-|[<-|[<-|[<-|[<-|[]]]]]]]; (split; [reflexivity|]); apply G; [exact B1 | constructor | constructor | exact B2 | exact B3|].
      eapply Forall_impl; [|exact t_zeros]. intros v ->. exact zero_base.
    + intros s Hs. cbn in Hs. destruct Hs as [<-|[<-|[<-|[<-|[<-|[]]]]]]; [exact B1 | constructor | constructor | exact B2 | exact B3].
    + split; [constructor; [apply wf_from | constructor]|]. split; [|constructor]. cbn [t_m m_sec].
      repeat (apply Forall_cons; [first [apply wf_new | apply wf_ZERO]|]). constructor.
  - reflexivity.
  - reflexivity.
  - exact t_zeros.
  - split; [reflexivity | exact t_zeros].
  - split; [reflexivity|]. eapply Forall_impl; [|exact t_zeros]. intros v ->. exact zero_base.
  - intros E. discriminate E.
Qed.

Lemma t_root : kroot 1 = kneg kone.
Proof. rewrite <- (kroot_half 0) by lia. cbn [Nat.pow kpow]. ring. Qed.
Lemma t_trace : trace_ok t_si t_tbl [0; 1; 2] t_ce (1 + length (ce_im t_ce)) t_pcm t_pconst t_m.
Proof.
  destruct t_parts as [I1 I2]. intros i ch Hi Hch rho. unfold rho. clear rho. rewrite I1. cbn [length Nat.add]. split; [|intros k x e v []].
  assert (T : ce_tbl t_ce = t_tbl ++ [nth 3 (ce_tbl t_ce) E_nop]) by (vm_compute; reflexivity). rewrite T. clear T. generalize (nth 3 (ce_tbl t_ce) E_nop). intros c j v Hj Hd.
  set (rho := trace_row t_si [] 1 t_pcm t_pconst (m_sec t_m Spublics) ch i) in *.
  assert (A0 : val (rho (N_new Ncm 0 None false)) = ksub kone (kpow (kroot 1) i)).
  { unfold rho, trace_row, leafp. cbn [n_ty n_id n_prime N_new Nat.ltb Nat.leb t_pcm peval at_pt t_si si_nbits]. rewrite of_k_val. unfold t_pcm, at_pt. cbn [peval]. ring. }
  assert (A1 : val (rho (N_new Ncm 0 None true)) = ksub kone (kmul (kpow (kroot 1) i) (kroot 1))).
  { unfold rho, trace_row, leafp. cbn [n_ty n_id n_prime N_new Nat.ltb Nat.leb t_si si_nbits]. rewrite of_k_val. unfold t_pcm, at_pt. cbn [peval]. ring. }
  assert (A2 : val (rho (N_new Nconst 0 None false)) = kconst t_two).
  { unfold rho, trace_row, leafp. cbn [n_ty n_id n_prime N_new Nat.ltb Nat.leb t_si si_nbits si_nconst]. rewrite of_k_val. unfold t_pconst, at_pt. cbn [peval]. ring. }
  assert (A3 : val (rho (N_new Npublic 0 None false)) = kconst t_two).
  { unfold rho, trace_row, leafp. cbn [n_ty n_id n_prime N_new]. rewrite of_k_val. cbn [nth t_m m_sec]. apply val_from. }
  assert (W : kpow (kroot 1) i = kone \/ kpow (kroot 1) i = kneg kone).
  { cbn in Hi. destruct i as [|[|i]]; [left; reflexivity | right; rewrite t_root; cbn [kpow]; ring | lia]. }
  assert (T2 : kconst t_two = kadd kone kone) by (unfold t_two; rewrite kconst_add, kconst_1; reflexivity).
  clearbody rho. set (w := kpow (kroot 1) i) in *. clearbody w. rewrite t_root in A1.
  destruct Hj as [<-|[<-|[<-|[]]]].
  - assert (D : den (with_im [] (t_tbl ++ [c])) rho false (E_exp 0 false) (e_mul (rho (N_new Ncm 0 None false)) (rho (N_new Ncm 0 None true)))).
    { eapply D_exp; [reflexivity | reflexivity | reflexivity | reflexivity|]. eapply D_mul; [reflexivity | reflexivity | |]; [apply (D_cm _ _ _ (E_cm 0 false)) | apply (D_cm _ _ _ (E_cm 0 true))]; reflexivity. }
    rewrite (den_fun _ _ _ _ _ Hd _ D), val_mul, A0, A1. destruct W as [-> | ->]; ring.
  - assert (D : den (with_im [] (t_tbl ++ [c])) rho false (E_exp 1 false) (e_sub (e_add (rho (N_new Ncm 0 None false)) (rho (N_new Ncm 0 None true))) (rho (N_new Nconst 0 None false)))).
    { eapply D_exp; [reflexivity | reflexivity | reflexivity | reflexivity|]. eapply D_sub; [reflexivity | reflexivity | |apply (D_const _ _ _ (E_const 0 false)); reflexivity].
      eapply D_add; [reflexivity | reflexivity | |]; [apply (D_cm _ _ _ (E_cm 0 false)) | apply (D_cm _ _ _ (E_cm 0 true))]; reflexivity. }
    rewrite (den_fun _ _ _ _ _ Hd _ D), val_sub, val_add, A0, A1, A2, T2. ring.
  - assert (D : den (with_im [] (t_tbl ++ [c])) rho false (E_exp 2 false) (e_sub (rho (N_new Nconst 0 None false)) (rho (N_new Npublic 0 None false)))).
    { eapply D_exp; [reflexivity | reflexivity | reflexivity | reflexivity|]. eapply D_sub; [reflexivity | reflexivity | apply (D_const _ _ _ (E_const 0 false)); reflexivity | apply (D_public _ _ _ (E_new OPublic (Some 0) None [])); reflexivity]. }
    rewrite (den_fun _ _ _ _ _ Hd _ D), val_sub, A2, A3. ring.
Qed.
Lemma t_chunks : chunks_ok t_si 2.
Proof. eexists. split; [reflexivity|]. cbn [t_si si_nbits_ext]. left. apply Nat.leb_le. vm_compute. reflexivity. Qed.

(* the transcript *)
Lemma ones_len : forall i s, length (ones i s) = 12. Proof. reflexivity. Qed.
Definition all1 (t : transcript) : Prop := Forall (fun v => v = f1) (tr_out t).
Lemma upd1 t t' : update_state ones t = Ok t' -> all1 t'.
Proof.
  unfold update_state, poseidon_hash. destruct (negb _); [intros H; discriminate H|]. destruct (negb _); [intros H; discriminate H|].
  intros H. apply ok_inj in H. subst t'. unfold all1. cbn. repeat constructor.
Qed.
Lemma add1 t e t' : all1 t -> add_1 ones t e = Ok t' -> all1 t'.
Proof.
  unfold add_1. cbn [tr_pending]. intros A. destruct (_ =? 8); [apply upd1|]. intros H. apply ok_inj in H. subst t'. constructor.
Qed.
Lemma adds1 e : forall t t', all1 t -> foldM (add_1 ones) e t = Ok t' -> all1 t'.
Proof.
  induction e as [|x e IH]; intros t t' A H; cbn [foldM] in H; [apply ok_inj in H; now subst|].
  destruct (add_1 ones t x) as [t1| | |] eqn:E; try discriminate H. exact (IH t1 t' (add1 t x t1 A E) H).
Qed.
Lemma put1 es : forall t t', all1 t -> put ones t es = Ok t' -> all1 t'.
Proof.
  unfold put. induction es as [|e es IH]; intros t t' A H; cbn [foldM] in H; [apply ok_inj in H; now subst|].
  destruct (foldM (add_1 ones) e t) as [t1| | |] eqn:E; try discriminate H. exact (IH t1 t' (adds1 e t t1 A E) H).
Qed.
Lemma elems1 es : forall t t', all1 t -> put_elems ones t es = Ok t' -> all1 t'.
Proof.
  unfold put_elems. induction es as [|e es IH]; intros t t' A H; cbn [foldM] in H; [apply ok_inj in H; now subst|].
  destruct (put_elem ones t e) as [t1| | |] eqn:E; try discriminate H. exact (IH t1 t' (put1 _ t t1 A E) H).
Qed.
Lemma field1 t v t' : all1 t -> get_fields1 ones t = Ok (v, t') -> v = f1 /\ all1 t'.
Proof.
  unfold get_fields1. intros A H. unfold all1 in A. destruct (tr_out t) as [|x r].
  - destruct (update_state ones t) as [t1| | |] eqn:E; try discriminate H. cbn [bind] in H. apply upd1 in E. unfold all1 in E. destruct (tr_out t1) as [|x r]; try discriminate H.
    injection H as <- <-. split; [exact (Forall_inv E) | exact (Forall_inv_tail E)].
  - injection H as <- <-. split; [exact (Forall_inv A) | exact (Forall_inv_tail A)].
Qed.
Lemma challenge1 t x t' : all1 t -> get_challenge ones t = Ok (x, t') -> x = t_one /\ all1 t'.
Proof.
  intros A H. unfold get_challenge, get_field in H.
  destruct (get_fields1 ones t) as [[a t1]| | |] eqn:E1; try discriminate H. cbn [HashModel.unwrap bind] in H. destruct (field1 _ _ _ A E1) as [-> A1].
  destruct (get_fields1 ones t1) as [[b t2]| | |] eqn:E2; try discriminate H. cbn [HashModel.unwrap bind] in H. destruct (field1 _ _ _ A1 E2) as [-> A2].
  destruct (get_fields1 ones t2) as [[c t3]| | |] eqn:E3; try discriminate H. cbn [HashModel.unwrap bind] in H. destruct (field1 _ _ _ A2 E3) as [-> A3].
  injection H as <- <-. split; [reflexivity | exact A3].
Qed.
Lemma t_rounds r1 r2 r3 : exists tr, first_rounds ones (m_sec t_m Spublics) r1 r2 r3 (m_sec t_m Schallenge) tr /\ all1 tr.
Proof.
  destruct (elems_ok ones ones_len (m_sec t_m Spublics) tr_new TranscriptProof.new_wf) as [ta [E1 W1]].
  destruct (put_ok ones ones_len ta [r1] W1) as [tb [E2 W2]]. destruct (challenge_ok ones ones_len tb W2) as [c0 [tc [E3 W3]]]. destruct (challenge_ok ones ones_len tc W3) as [c1 [td [E4 W4]]].
  destruct (put_ok ones ones_len td [r2] W4) as [te [E5 W5]]. destruct (challenge_ok ones ones_len te W5) as [c2 [tf [E6 W6]]]. destruct (challenge_ok ones ones_len tf W6) as [c3 [tg [E7 W7]]].
  destruct (put_ok ones ones_len tg [r3] W7) as [tr [E8 W8]].
  assert (A1 : all1 ta) by (refine (elems1 _ tr_new ta _ E1); constructor). assert (A2 := put1 _ _ _ A1 E2).
  destruct (challenge1 _ _ _ A2 E3) as [-> A3]. destruct (challenge1 _ _ _ A3 E4) as [-> A4]. assert (A5 := put1 _ _ _ A4 E5).
  destruct (challenge1 _ _ _ A5 E6) as [-> A6]. destruct (challenge1 _ _ _ A6 E7) as [-> A7].
  exists tr. split; [|exact (put1 _ _ _ A7 E8)]. exists ta, tb, tc, td, te, tf, tg, t_one, t_one, t_one, t_one. repeat (split; [assumption|]). reflexivity.
Qed.
Lemma t_tree s : length (m_sec t_m s) = 2 ^ 2 * sec_width t_si s -> sec_width t_si s <= 3 -> exists t r, tree_of ones t_si t_m s t r.
Proof.
  intros L W. assert (D : sec_width t_si s / 8 <= MAX_OPS) by (rewrite Nat.div_small by lia; apply Nat.le_0_l).
  destruct (MerkleProof.merkelize_total ones ones_len 1 (map c0 (m_sec t_m s)) (sec_width t_si s) (2 ^ 2)) as [t Ht]; [discriminate | cbn; lia | rewrite map_length; exact L | exact D|].
  destruct (MerkleProof.complete ones ones_len 1 (map c0 (m_sec t_m s)) (sec_width t_si s) (2 ^ 2) t 0 ltac:(cbn; lia) ltac:(rewrite map_length; exact L) Ht ltac:(cbn; lia)) as [mp [r [_ [Hr _]]]].
  exists t, r. split; [exists 1; exact Ht | exact Hr].
Qed.
(* the challenge point lies outside of the domain *)
Lemma t_xi workers si pg m tr br m4 t4 root4 xi tr4 : all1 tr -> quotient_phase ones workers si pg m tr br = Ok (m4, t4, root4, xi, tr4) -> xi = t_one.
Proof.
  unfold quotient_phase. intros A H.
  destruct (get_challenge ones tr) as [[vc tr1]| | |] eqn:E1; try discriminate H. destruct (challenge1 _ _ _ A E1) as [_ A1]. rewrite bindE in H. cbv beta iota in H.
  destruct (set_challenge _ _ _); try discriminate H. rewrite bindE in H.
  destruct (calculate_exps_parallel _ _ _ _ _); try discriminate H. rewrite bindE in H. cbv zeta in H.
  destruct (p_fft _ true _ _ _ _ _) as [q1 b1]. destruct q1; try discriminate H. rewrite bindE in H.
  destruct (split_q _ _ _ _ _ _); try discriminate H. rewrite bindE in H.
  match type of H with context [if ?b then ?x else ?y] => destruct (if b then x else y) as [q2 b2] end. destruct q2; try discriminate H. rewrite bindE in H.
  destruct (HashModel.unwrap _); try discriminate H. rewrite bindE in H. destruct (tree_root _); try discriminate H. rewrite bindE in H.
  destruct (put _ _ _) as [tr2| | |] eqn:E2; try discriminate H. rewrite bindE in H. assert (A2 := put1 _ _ _ A1 E2).
  destruct (get_challenge ones tr2) as [[x tr3]| | |] eqn:E3; try discriminate H. rewrite bindE in H. cbv beta iota in H. destruct (challenge1 _ _ _ A2 E3) as [Ex _].
  destruct (set_challenge _ _ _); try discriminate H. rewrite bindE in H. apply ok_inj in H. injection H as _ _ _ <- _. exact Ex.
Qed.
Lemma t_out r : val t_one <> cpt 2 r.
Proof.
  rewrite <- t_cpt. intros E. apply (f_equal k1) in E. Local Transparent kconst. cbn in E. apply (f_equal fw) in E. vm_compute in E. discriminate E.
Qed.

(* every hypothesis of the completeness theorem, and the proof it is about *)
Theorem toy_stark : exists t1 t2 t3 tc r1 r2 r3 rc tr,
  (forall i s, length (ones i s) = 12) /\
  stark_cfg 10 20 t_si t_tbl [0; 1; 2] 1 2 t_ce t_pg (length (m_sec t_m Spublics)) /\
  stark_mem t_si (1 + length (ce_im t_ce)) t_pcm t_pconst t_m /\
  trace_ok t_si t_tbl [0; 1; 2] t_ce (1 + length (ce_im t_ce)) t_pcm t_pconst t_m /\
  2 <> 0 /\ chunks_ok t_si 2 /\ si_width t_si Scm4_2ns / 8 <= MAX_OPS /\
  tree_of ones t_si t_m Scm1_2ns t1 r1 /\ tree_of ones t_si t_m Scm2_2ns t2 r2 /\ tree_of ones t_si t_m Scm3_2ns t3 r3 /\ tree_of ones t_si t_m Sconst_2ns tc rc /\
  first_rounds ones (m_sec t_m Spublics) r1 r2 r3 (m_sec t_m Schallenge) tr /\ nice br_new /\
  steps_ok (si_nbits_ext t_si) [1] /\ 0 < 3 /\
  exists p, stark_prove ones 2 t_si t_pg [2; 1] 3 t1 t2 t3 tc t_m tr br_new = Ok p /\ stark_verify ones t_si t_pg [2; 1] 3 rc p = Ok true.
Proof.
  destruct (t_tree Scm1_2ns eq_refl ltac:(cbn; lia)) as [t1 [r1 T1]]. destruct (t_tree Scm2_2ns eq_refl ltac:(cbn; lia)) as [t2 [r2 T2]].
  destruct (t_tree Scm3_2ns eq_refl ltac:(cbn; lia)) as [t3 [r3 T3]]. destruct (t_tree Sconst_2ns eq_refl ltac:(cbn; lia)) as [tc [rc Tc]].
  destruct (t_rounds r1 r2 r3) as [tr [F A]].
  assert (S1 : steps_ok (si_nbits_ext t_si) [1]).
  { cbn [steps_ok t_si si_nbits_ext]. split; [lia|]. split; [lia|]. split; [|exact Logic.I]. apply Nat.leb_le. vm_compute. reflexivity. }
  assert (O1 : si_width t_si Scm4_2ns / 8 <= MAX_OPS) by (apply Nat.leb_le; vm_compute; reflexivity).
  exists t1, t2, t3, tc, r1, r2, r3, rc, tr.
  split; [exact ones_len|]. split; [exact t_cfg|]. split; [exact t_mem|]. split; [exact t_trace|]. split; [discriminate|]. split; [exact t_chunks|]. split; [exact O1|].
  split; [exact T1|]. split; [exact T2|]. split; [exact T3|]. split; [exact Tc|]. split; [exact F|]. split; [exact new_nice|]. split; [exact S1|]. split; [lia|].
  destruct (stark_complete ones 10 20 2 t_si t_tbl [0; 1; 2] 1 2 t_ce t_pg t_m t_pcm t_pconst t1 t2 t3 tc r1 r2 r3 rc tr br_new [1] 3 ones_len t_cfg t_mem t_trace ltac:(discriminate) t_chunks O1
    T1 T2 T3 Tc F new_nice S1 ltac:(lia)) as [m4 [t4 [root4 [xi [tr4 [Q H]]]]]].
  assert (X := t_xi _ _ _ _ _ _ _ _ _ _ _ A Q). subst xi.
  destruct (H (fun r _ => t_out r)) as [p [P1 [_ P2]]]. exists p. split; [exact P1 | exact P2].
Qed.

(* the column of the machine for the examples on its own *)
Lemma t_column : column 2 (m_sec t_m Scm1_2ns) 1 0 1 (t_pcm 0).
Proof.
  pose proof (sm_cols _ _ _ _ _ t_mem 0 ltac:(lia)) as [_ [p [s [pos [dim [E1 [E2 [_ C]]]]]]]]. cbn in E1. injection E1 as <-. cbn in E2. injection E2 as <- <- <-. exact C.
Qed.
Lemma toy_quotient : exists Sq cm4 Q, length Q = 2 /\ Q <> [kzero; kzero] /\
  0 < 3 /\ 1 <= 2 <= 31 /\ 1 <= 2 /\ (1 = 1 \/ 1 = 3) /\ 0 < 2 /\ 2 * 2 ^ 1 <= 2 ^ 2 /\
  length Sq = 2 ^ 2 * 1 /\ length cm4 = 2 ^ 2 * (1 * 2) /\ Forall vbase Sq /\ Forall vbase cm4 /\ nice br_new /\ length Q <= 2 * 2 ^ 1 /\
  (forall i, i < 2 ^ 2 -> val (elem Sq 1 0 1 i) = peval Q (cpt 2 i)).
Proof.
  destruct t_column as [_ _ L B V]. exists (m_sec t_m Scm1_2ns), (repeat e_ZERO 8), (t_pcm 0).
  split; [reflexivity|]. split; [intros E; exact (kone_neq (f_equal (hd kzero) E))|].
  repeat (split; [try lia; try (now left); try (cbn; lia); try reflexivity; try exact B; try exact new_nice; try (cbn [repeat]; repeat (constructor; [exact zero_base|]); constructor)|]). exact V.
Qed.
Lemma toy_evaluations : exists buf P, si_nbits t_si <= si_nbits_ext t_si /\ si_nbits_ext t_si <= 31 /\ MG (si_nbits t_si) = Ok (root 1) /\
  get_ev t_si t_m (true, true, 0) = Ok (buf, 0, 1, 1) /\ column (si_nbits_ext t_si) buf 1 0 1 P /\ length P = 2 ^ si_nbits t_si /\ P = [kone; kneg kone].
Proof.
  exists (m_sec t_m Scm1_2ns), (t_pcm 0). split; [cbn; lia|]. split; [cbn; lia|]. split; [apply MG_root; cbn; lia|]. split; [reflexivity|].
  split; [exact t_column|]. split; reflexivity.
Qed.
