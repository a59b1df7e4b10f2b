(* A machine of two rows with the lookup of a product in a selected column, for the example of C82; no part of the code. *)
From Coq Require Import Ring Field Arith.
From Verif Require Import Base GlModel FrField F3gModel Cubic F3gProof ListAux PolyModel Roots PolyProof FftProof FftTop FriMath CodegenModel CodegenProof
  InterpModel InterpProof VerifierModel VerifierProof ImModel HashModel FftpModel FftpProof FftpBase FftpTop BrProof FriModel FriProof PolsModel PolsProof ProverModel ProverProof
  ParModel ParProof StarkMath StarkModel StarkGen StarkSrc StarkPoly StarkRow StarkQuot StarkEval StarkStep4 StarkTop StarkDone StarkToy StageModel StarkExtend StarkStages StarkPlain
  StageToy NStep NGen NTop ZStage DenRel ArgStages MapModel ArgHonest ArgRunToy.
From Verif Require ArgModel ArgMath ArgTop.
Open Scope nat_scope.
Open Scope list_scope.
Open Scope res_scope.

(* a and b are (1, 2) and (1, 1); a b is looked up in t = (1, 2) where s = (1, 1) is one. Constants: l1, t, s.
   Columns 2 and 3 are h1 and h2, 4 is z, 5 and 6 are f and the numerator, which become intermediate columns. *)
Definition x_start : ArgModel.astate := ArgModel.mkA [E_mul (E_cm 0 false) (E_cm 1 false); E_const 1 false; E_const 2 false] [] 2 (mkCtx 0 [] []).
Definition x_look : ArgModel.lident := ArgModel.mkL (Some [0]) (Some [1]) None (Some 2).
Definition x_tbl : list expr := Eval vm_compute in
  match ArgModel.generate_step2 60 x_start [x_look] with
  | Ok (s2, pu, _) => match ArgModel.generate_step3 60 (Some 0) s2 pu [] [] with Ok o => ArgModel.a_exps (ArgModel.o_state o) | _ => [] end
  | _ => [] end.
Definition x_ids : list nat := [5; 8].
Definition x_ce : cexp := match gen_constraint 60 x_tbl x_ids 5 3 with Ok c => c | _ => mkCE [] [] 0 [] 0 end.
Definition x_si : sinfo := mkSI
  [(Scm1_2ns, 0, 1); (Scm1_2ns, 1, 1); (Scm2_2ns, 0, 3); (Scm2_2ns, 3, 3); (Scm3_2ns, 0, 3); (Scm3_2ns, 3, 1); (Scm3_2ns, 4, 3); (Scm4_2ns, 0, 3); (Scm4_2ns, 3, 3);
   (Scm1_n, 0, 1); (Scm1_n, 1, 1); (Scm2_n, 0, 3); (Scm2_n, 3, 3); (Scm3_n, 0, 3); (Scm3_n, 3, 1); (Scm3_n, 4, 3); (Stmpexp_n, 0, 3); (Stmpexp_n, 3, 3)]
  [9; 10; 11; 12; 13; 14; 15] [0; 1; 2; 3; 4; 5; 6; 7; 8] [16; 17]
  (fun s => match s with Scm1_n | Scm1_2ns => 2 | Scm2_n | Scm2_2ns | Stmpexp_n | Scm4_n | Scm4_2ns => 6 | Scm3_n | Scm3_2ns => 7 | Sq_2ns | Sf_2ns => 3 | _ => 0 end) 3 3 1 2.
Definition x_im : list (nat * nat) := [(4, 5); (6, 6)].
Definition x_texp : list (nat * nat) := [(3, 0); (7, 1)].
Definition x_gen (ids : list nat) : context := match gens x_tbl 60 ids (mkCtx 0 [] []) with Ok c => c | _ => mkCtx 0 [] [] end.
Definition x_c2 := x_gen [4; 3].
Definition x_c3 := x_gen [6; 7].
Definition x_c4 := x_gen [4; 6].
Definition x_seg (c : context) : segment := match fix_prover_code x_si x_im x_texp true (linear_code c) (x_tmp c) with Ok s => s | _ => mkSeg [] 0 end.
Definition x_s2 := x_seg x_c2.
Definition x_s3 := x_seg x_c3.
Definition x_s4 := x_seg x_c4.
Definition x_pu : pcctx := mkPC 4 3 6 7.
Definition x_sg : stageprog := mkSG [] [] x_s2 x_s3 x_s4 [x_pu] [] []
  (fun e => match e with 3 => Ok 16 | 4 => Ok 14 | 6 => Ok 15 | 7 => Ok 17 | _ => Panic end) 2.
Definition x_cp : pols := mkPols 2 2 [[f1; t_two]; [f1; f1]].
Definition x_kp : pols := mkPols 3 2 [[f1; f0]; [f1; t_two]; [f1; f1]].
Definition x_pg : program := match gen_program 60 x_si x_ce with Ok p => p | _ => mkP (mkSeg [] 0) (mkSeg [] 0) [] [] (mkEV [] []) [] end.
Definition x_q : ArgModel.pcctx9 := ArgModel.mkQ 2 3 4 3 5 8 6 7 4.
Lemma x_generated : exists s2 pu code o, ArgModel.generate_step2 60 x_start [x_look] = Ok (s2, pu, code) /\ ArgModel.generate_step3 60 (Some 0) s2 pu [] [] = Ok o /\
  ArgModel.a_exps (ArgModel.o_state o) = x_tbl /\ ArgModel.a_ids (ArgModel.o_state o) = x_ids /\ map (fun q => (ArgModel.q_f q, ArgModel.q_t q, ArgModel.q_num q, ArgModel.q_den q)) (ArgModel.o_pu o) = [(4, 3, 6, 7)].
Proof. eexists. eexists. eexists. eexists. split; [vm_compute; reflexivity|]. split; [vm_compute; reflexivity|]. split; [|split]; vm_compute; reflexivity. Qed.
Lemma x_con : gen_constraint 60 x_tbl x_ids 5 3 = Ok x_ce. Proof. vm_compute. reflexivity. Qed.
Lemma x_prog : gen_program 60 x_si x_ce = Ok x_pg. Proof. vm_compute. reflexivity. Qed.
Lemma x_parts : ce_im x_ce = x_im /\ ce_qs x_ce = [7; 8]. Proof. vm_compute. split; reflexivity. Qed.
Lemma x_dims : get_exp_dim 60 x_tbl [1; 1; 3; 3; 3] [] (E_exp 4 false) = Ok 1 /\ get_exp_dim 60 x_tbl [1; 1; 3; 3; 3] [] (E_exp 3 false) = Ok 3.
Proof. vm_compute. split; reflexivity. Qed.
Local Opaque x_ce x_pg.

Ltac lab_all := repeat match goal with |- Forall _ _ => constructor | |- labs _ _ _ _ => constructor end.
Lemma x_labs (P : node -> Prop) p i e : (forall v, P (N_new Nnumber 0 (Some 1%Z) v)) ->
  (forall c p, c <= 1 /\ i = 0 \/ (c = 2 \/ c = 3) /\ i = 7 \/ c = 4 /\ (i = 5 \/ i = 8) -> P (N_new Ncm c None p)) -> (forall c p, c <= 2 -> (c = 0 -> i = 5) -> P (N_new Nconst c None p)) ->
  (forall c p, c <= 7 -> P (N_new Nexp c None p)) -> (forall c p, c = 1 /\ i = 3 \/ (c = 2 \/ c = 3) /\ (i = 6 \/ i = 7) -> P (N_new Nchallenge c None p)) ->
  nth_error x_tbl i = Some e -> labs P false p e.
Proof.
  intros A B C D E He. do 9 (destruct i as [|i]; [cbn [nth_error x_tbl] in He; injection He as <-; lab_all; cbn -[N_new]; try exact Logic.I; try (intros j Ej; injection Ej as <-);
    first [apply A | apply B; lia | apply C; lia | apply D; lia | apply E; lia]|]).
  cbn [nth_error x_tbl] in He. destruct i; discriminate He.
Qed.

Lemma x_one : exists v, number_ref (Some 1%Z) = Ok v. Proof. eexists. vm_compute. reflexivity. Qed.
Lemma x_wf : Forall wf_e x_tbl. Proof. repeat constructor. Qed.
Definition x_R2 (k : bool * nat) : Prop := In k [(false, 0); (false, 4); (false, 1); (false, 2); (false, 3)].
Definition x_R3 (k : bool * nat) : Prop := In k [(false, 0); (false, 4); (false, 1); (false, 2); (false, 3); (true, 1); (true, 2); (true, 3); (false, 6); (false, 7)].
Definition x_R4 (k : bool * nat) : Prop := In k [(false, 0); (false, 4); (false, 1); (false, 2); (false, 3); (true, 1); (true, 2); (true, 3); (false, 6)].
Lemma x_k2 s c : kwrites x_si x_im x_texp x_c2 s c = match s with Stmpexp_n => c <? 3 | Scm3_n => (3 <=? c) && (c <? 4) | _ => false end.
Proof.
  unfold kwrites. replace (exp_dests (linear_code x_c2)) with [(false, 0); (false, 4); (false, 1); (false, 2); (false, 3)] by (vm_compute; reflexivity).
  unfold covers. destruct s; try reflexivity; do 5 (destruct c as [|c]; [reflexivity|]); reflexivity.
Qed.
Lemma x_k3 s c : kwrites x_si x_im x_texp x_c3 s c = match s with Stmpexp_n => c <? 6 | Scm3_n => (3 <=? c) && (c <? 7) | _ => false end.
Proof.
  unfold kwrites. replace (exp_dests (linear_code x_c3)) with [(false, 0); (false, 4); (false, 1); (false, 2); (false, 3); (true, 1); (true, 2); (true, 3); (false, 6); (false, 7)] by (vm_compute; reflexivity).
  unfold covers. destruct s; try reflexivity; do 8 (destruct c as [|c]; [reflexivity|]); reflexivity.
Qed.
Lemma x_k4 s c : kwrites x_si x_im x_texp x_c4 s c = match s with Stmpexp_n => c <? 3 | Scm3_n => (3 <=? c) && (c <? 7) | _ => false end.
Proof.
  unfold kwrites. replace (exp_dests (linear_code x_c4)) with [(false, 0); (false, 4); (false, 1); (false, 2); (false, 3); (true, 1); (true, 2); (true, 3); (false, 6)] by (vm_compute; reflexivity).
  unfold covers. destruct s; try reflexivity; do 8 (destruct c as [|c]; [reflexivity|]); reflexivity.
Qed.
Definition x_td2 (i : nat) : bool := negb (i =? 2).
Definition x_td3 (i : nat) : bool := negb (i =? 22).
Definition x_td4 (i : nat) : bool := negb (i =? x_tmp x_c4).
Lemma x_typed td m seg : forallb (fun c => wnode x_si m td (i_dest c) || forallb (fun r => negb (wnode x_si m td r)) (i_src c)) (sg_first seg) = true -> Forall (typed x_si m td) (sg_first seg).
Proof.
  intros A. apply Forall_forall. intros c Hc Hd. apply Forall_forall. intros r Hr. rewrite forallb_forall in A. specialize (A c Hc). rewrite Hd in A. cbn [orb] in A.
  rewrite forallb_forall in A. specialize (A r Hr). apply negb_true_iff in A. exact A.
Qed.
Ltac each H := repeat (destruct H as [H|H]; [first [discriminate H | injection H as <- <- | injection H as <-]|]); [..|destruct H].

Lemma x_nseg2 m : drawn x_sg 2 m -> nseg x_si Step2prev x_im x_texp x_td2 x_tbl 60 [4; 3] 0 x_c2 x_s2 x_R2 m.
Proof.
  intros [_ [_ [Dl Dc]]]. constructor.
  - reflexivity.
  - vm_compute. reflexivity.
  - vm_compute. reflexivity.
  - exact x_wf.
  - constructor; [cbn; tauto|]. constructor; [cbn; tauto | constructor].
  - intros p i e HR He. assert (Hi : p = false /\ i <= 4) by (each HR; split; (reflexivity || lia)). destruct Hi as [-> Hi]. split.
    + apply (x_labs _ false i e).
      * intros v. right. right. exact x_one.
      * intros c q Hc. right. right. assert (Hc' : c = 0 \/ c = 1) by lia. unfold lread. cbn [n_ty n_id N_new].
        destruct Hc' as [-> | ->]; [exists Scm1_n, 0, 1 | exists Scm1_n, 1, 1]; (split; [reflexivity|]; split; [|split; [now left|]]);
          try (intros k _; rewrite x_k2; reflexivity); (split; [now left|]; split; [now left|]; split; [reflexivity|]; cbn; lia).
      * intros c q Hc _. right. right. unfold lread. cbn [n_ty n_id N_new]. split; [cbn; lia|]. split; [cbn; tauto|]. intros k. rewrite x_k2. reflexivity.
      * intros c q _. right. left. reflexivity.
      * intros c q Hc. right. right. unfold lread. cbn [n_ty n_id N_new]. rewrite Dl. lia.
      * exact He.
    + each HR; cbn in He; injection He as <-; intros k Hk; cbn in Hk; unfold x_R2; cbn; tauto.
  - intros p i ty k HR Hk. each HR; cbn in Hk; try discriminate Hk; injection Hk as <- <-;
      (eexists; eexists; eexists; split; [reflexivity|]; split; [split; [first [now left | now right]|]; split; [cbn; tauto|]; split; [reflexivity|]; cbn; lia | cbn; tauto]).
  - intros p q i j s c H1 H2 X1 X2. assert (Hi : forall r i, x_R2 (r, i) -> i <= 4) by (intros r i' HR; each HR; lia).
    apply Hi in H1. apply Hi in H2. clear Hi.
    do 5 (destruct i as [|i]; [do 5 (destruct j as [|j]; [try reflexivity; destruct s; try discriminate X1; try discriminate X2; do 4 (destruct c as [|c]; [first [discriminate X1 | discriminate X2]|]); first [discriminate X1 | discriminate X2]|]); lia|]). lia.
  - apply x_typed. vm_compute. reflexivity.
  - intros i e HR He. each HR.
  - intros p i s pos e HR Hk Hs He. each HR; cbn in Hk; try discriminate Hk. injection Hk as <- <-. cbn in Hs. intuition discriminate.
Qed.

Lemma x_nseg3 m : drawn x_sg 4 m -> nseg x_si Step3prev x_im x_texp x_td3 x_tbl 60 [6; 7] 0 x_c3 x_s3 x_R3 m.
Proof.
  intros [_ [_ [Dl Dc]]]. constructor.
  - reflexivity.
  - vm_compute. reflexivity.
  - vm_compute. reflexivity.
  - exact x_wf.
  - constructor; [cbn; tauto|]. constructor; [cbn; tauto | constructor].
  - intros p i e HR He. assert (Hi : i <> 5 /\ i <> 8) by (each HR; split; lia). split.
    + apply (x_labs _ p i e).
      * intros v. right. right. exact x_one.
      * intros c q Hc. right. right. assert (Hc' : c = 0 \/ c = 1 \/ c = 2 \/ c = 3) by lia. unfold lread. cbn [n_ty n_id N_new].
        destruct Hc' as [-> |[-> |[-> | ->]]]; [exists Scm1_n, 0, 1 | exists Scm1_n, 1, 1 | exists Scm2_n, 0, 3 | exists Scm2_n, 3, 3]; (split; [reflexivity|]; split; [|split; [cbn; tauto|]]);
          try (intros k _; rewrite x_k3; reflexivity); (split; [first [now left | now right]|]; split; [cbn; tauto|]; split; [reflexivity|]; cbn; lia).
      * intros c q Hc _. right. right. unfold lread. cbn [n_ty n_id N_new]. split; [cbn; lia|]. split; [cbn; tauto|]. intros k. rewrite x_k3. reflexivity.
      * intros c q _. right. left. reflexivity.
      * intros c q Hc. right. right. unfold lread. cbn [n_ty n_id N_new]. rewrite Dl. lia.
      * exact He.
    + each HR; cbn in He; injection He as <-; intros k Hk; cbn in Hk; unfold x_R3; cbn; tauto.
  - intros p i ty k HR Hk. each HR; cbn in Hk; try discriminate Hk; injection Hk as <- <-;
      (eexists; eexists; eexists; split; [reflexivity|]; split; [split; [first [now left | now right]|]; split; [cbn; tauto|]; split; [reflexivity|]; cbn; lia | cbn; tauto]).
  - intros p q i j s c H1 H2 X1 X2. assert (Hi : forall r i, x_R3 (r, i) -> i <= 7) by (intros r i' HR; each HR; lia).
    apply Hi in H1. apply Hi in H2. clear Hi.
    do 8 (destruct i as [|i]; [do 8 (destruct j as [|j]; [try reflexivity; destruct s; try discriminate X1; try discriminate X2; do 7 (destruct c as [|c]; [first [discriminate X1 | discriminate X2]|]); first [discriminate X1 | discriminate X2]|]); lia|]). lia.
  - apply x_typed. vm_compute. reflexivity.
  - intros i e HR He. each HR; cbn in He; injection He as <-; lab_all; cbn; try exact Logic.I; intros j Ej; discriminate.
  - intros p i s pos e HR Hk Hs He. each HR; cbn in Hk; try discriminate Hk; injection Hk as <- <-; cbn in Hs; try (exfalso; intuition discriminate); cbn in He; injection He as <-.
    eapply W_right; [right; right; reflexivity | reflexivity|]. eapply W_right; [left; reflexivity | reflexivity|]. eapply W_challenge; [reflexivity | reflexivity|]. apply Dc. lia.
Qed.

Lemma x_nseg4 m : drawn x_sg 4 m -> nseg x_si Step3 x_im x_texp x_td4 x_tbl 60 [4; 6] 0 x_c4 x_s4 x_R4 m.
Proof.
  intros [_ [_ [Dl Dc]]]. constructor.
  - reflexivity.
  - vm_compute. reflexivity.
  - vm_compute. reflexivity.
  - exact x_wf.
  - constructor; [cbn; tauto|]. constructor; [cbn; tauto | constructor].
  - intros p i e HR He. assert (Hi : i <> 5 /\ i <> 8) by (each HR; split; lia). split.
    + apply (x_labs _ p i e).
      * intros v. right. right. exact x_one.
      * intros c q Hc. right. right. assert (Hc' : c = 0 \/ c = 1 \/ c = 2 \/ c = 3) by lia. unfold lread. cbn [n_ty n_id N_new].
        destruct Hc' as [-> |[-> |[-> | ->]]]; [exists Scm1_n, 0, 1 | exists Scm1_n, 1, 1 | exists Scm2_n, 0, 3 | exists Scm2_n, 3, 3]; (split; [reflexivity|]; split; [|split; [cbn; tauto|]]);
          try (intros k _; rewrite x_k4; reflexivity); (split; [first [now left | now right]|]; split; [cbn; tauto|]; split; [reflexivity|]; cbn; lia).
      * intros c q Hc _. right. right. unfold lread. cbn [n_ty n_id N_new]. split; [cbn; lia|]. split; [cbn; tauto|]. intros k. rewrite x_k4. reflexivity.
      * intros c q _. right. left. reflexivity.
      * intros c q Hc. right. right. unfold lread. cbn [n_ty n_id N_new]. rewrite Dl. lia.
      * exact He.
    + each HR; cbn in He; injection He as <-; intros k Hk; cbn in Hk; unfold x_R4; cbn; tauto.
  - intros p i ty k HR Hk. each HR; cbn in Hk; try discriminate Hk; injection Hk as <- <-;
      (eexists; eexists; eexists; split; [reflexivity|]; split; [split; [first [now left | now right]|]; split; [cbn; tauto|]; split; [reflexivity|]; cbn; lia | cbn; tauto]).
  - intros p q i j s c H1 H2 X1 X2. assert (Hi : forall r i, x_R4 (r, i) -> i <= 7) by (intros r i' HR; each HR; lia).
    apply Hi in H1. apply Hi in H2. clear Hi.
    do 8 (destruct i as [|i]; [do 8 (destruct j as [|j]; [try reflexivity; destruct s; try discriminate X1; try discriminate X2; do 7 (destruct c as [|c]; [first [discriminate X1 | discriminate X2]|]); first [discriminate X1 | discriminate X2]|]); lia|]). lia.
  - apply x_typed. vm_compute. reflexivity.
  - intros i e HR He. each HR; cbn in He; injection He as <-; lab_all; cbn; try exact Logic.I; intros j Ej; discriminate.
  - intros p i s pos e HR Hk Hs He. each HR; cbn in Hk; try discriminate Hk; injection Hk as <- <-; cbn in Hs; try (exfalso; intuition discriminate); cbn in He; injection He as <-.
    eapply W_right; [right; right; reflexivity | reflexivity|]. eapply W_right; [left; reflexivity | reflexivity|]. eapply W_challenge; [reflexivity | reflexivity|]. apply Dc. lia.
Qed.

Lemma x_machine : machine 60 60 x_si x_sg x_tbl x_ids 5 3 x_ce x_pg.
Proof.
  destruct x_parts as [I1 I2]. constructor.
  - constructor; try rewrite I1; try rewrite I2; cbn [x_si x_sg x_im st_publics si_nbits si_nbits_ext si_qdim si_width si_cm_2ns si_map length].
    + lia.
    + exact x_con.
    + split; [discriminate|]. cbn. lia.
    + exact x_prog.
    + split; [exact x_wf|]. intros p. apply Forall_forall. intros e He. apply In_nth_error in He. destruct He as [i He]. apply (x_labs _ p i e).
      * intros v. exact x_one.
      * intros c q Hc. cbn. lia.
      * intros c q Hc _. cbn. lia.
      * intros c q Hc. cbn. lia.
      * intros c q Hc. split; [cbn; lia | discriminate].
      * exact He.
    + repeat constructor; cbn; lia.
    + left. reflexivity.
    + repeat split; reflexivity.
    + intros p Hp. destruct p as [|[|p]]; [exists 7; split; reflexivity | exists 8; split; reflexivity | cbn in Hp; lia].
    + intros E. discriminate E.
  - cbn. lia.
  - rewrite I1. constructor.
    + intros a b [E|[E|[E|[]]]]; injection E as <- <-; (split; [reflexivity|]); apply h_ops; cbn; lia.
    + apply h_ops. cbn. lia.
    + split; [reflexivity|]. apply h_ops. cbn. lia.
    + intros c Hc. cbn [x_im length Nat.add] in Hc.
      destruct c as [|[|[|[|[|[|[|c]]]]]]]; [exists Scm1_n, Scm1_2ns, 0, 1, 0 | exists Scm1_n, Scm1_2ns, 1, 1, 1 | exists Scm2_n, Scm2_2ns, 0, 3, 2 | exists Scm2_n, Scm2_2ns, 3, 3, 3 | exists Scm3_n, Scm3_2ns, 0, 3, 4
        | exists Scm3_n, Scm3_2ns, 3, 1, 5 | exists Scm3_n, Scm3_2ns, 4, 3, 6 | lia];
      clear I1 I2; (split; [cbn; tauto|]); (split; [reflexivity|]); (split; [reflexivity|]); (split; [reflexivity|]); (split; [first [left; reflexivity | right; reflexivity]|]); cbn; lia.
  - constructor.
  - intros c p s pos dim Hc Hp Hm. cbn in Hc. destruct c as [|[|[|[|c]]]]; try lia; cbn in Hp; injection Hp as <-; cbn in Hm; congruence.
  - intros c p s pos dim Hc Hp Hm. cbn in Hc. destruct c as [|[|[|[|[|c]]]]]; try lia; cbn in Hp; injection Hp as <-; cbn in Hm; congruence.
Qed.
Definition x_RA (k : bool * nat) : Prop := In k [(false, 0); (false, 4); (false, 1); (false, 2); (false, 3); (true, 1); (true, 2); (true, 3); (false, 6); (false, 7); (false, 5); (false, 8)].
Definition x_RT (k : bool * nat) : Prop := False.
Local Notation x_amach := (argmachine x_si x_sg x_tbl x_ids x_ce x_texp x_td2 x_td3 x_td4 60 [4; 3] [6; 7] [4; 6] 0 0 0 x_c2 x_c3 x_c4 x_R2 x_R3 x_R4 x_RA x_RT [] 0 (fun _ => 0) (fun _ => (5, 8))).
Lemma x_arg : x_amach.
Proof.
  destruct x_parts as [I1 I2]. constructor; rewrite ?I1; clear I1 I2.
  - exact x_nseg2.
  - exact x_nseg3.
  - exact x_nseg4.
  - split; [repeat constructor; cbn; intuition discriminate|]. intros k Hk. cbn in *. tauto.
  - intros p i e HR He. assert (Hi : i <> 5 /\ i <> 8) by (each HR; split; lia). apply (x_labs _ p i e); try exact He; try (intros; discriminate).
    intros c q Hc _ pos dim. cbn [n_id N_new]. assert (Hc' : c = 0 \/ c = 1 \/ c = 2 \/ c = 3) by lia. destruct Hc' as [-> |[-> |[-> | ->]]]; cbn; discriminate.
  - intros t pu Ht. destruct t as [|t]; [|destruct t; discriminate Ht]. injection Ht as <-.
    split; [exists 0, 3; split; [reflexivity|]; split; [left; reflexivity | cbn; lia]|]. split; [exists 3, 3; split; [reflexivity|]; split; [left; reflexivity | cbn; lia]|].
    split; intros id X; cbn in X; apply ok_inj in X; subst id; [exists Scm3_n, 3, 1 | exists Stmpexp_n, 0, 3]; (split; [reflexivity|]; split; [tauto|]; split; [tauto | cbn; lia]).
  - intros t Ht. cbn in Ht. replace t with 0 by lia. split; [reflexivity | cbn; lia].
  - intros t t' Ht Ht'. cbn in Ht, Ht'. lia.
  - intros t k _ Hk. rewrite x_k3, x_k4. do 3 (destruct k as [|k]; [split; reflexivity|]). lia.
  - intros o e Ho He. destruct Ho as [<-|[]]. cbn in He. destruct He as [-> | ->]; (split; [cbn; tauto|]); eexists; eexists; (split; [reflexivity|]; split; reflexivity).
  - intros t o Ht. destruct t as [|t]; [|destruct t; discriminate Ht]. injection Ht as <-. split; reflexivity.
  - intros j [<-|[<-|[]]]; right; exists 0; (split; [cbn; lia|]); [left | right]; reflexivity.
  - intros p. apply Forall_forall. intros e He. apply In_nth_error in He. destruct He as [i He]. apply (x_labs _ p i e); try exact He; try (intros; discriminate). intros c q Hc _. cbn. lia.
  - split; [intros j [<-|[<-|[]]]; cbn; tauto|]. split; [intros k [<-|[<-|[]]]; cbn; tauto|].
    intros p i HR. split; [each HR; cbn; lia|]. intros e He k Hk. each HR; cbn in He; injection He as <-; cbn in Hk; unfold x_RA; cbn; tauto.
  - intros k e HR He. each HR; cbn in He; injection He as <-; lab_all; cbn; try exact Logic.I; intros j Ej; (split; [reflexivity | discriminate]).
  - split; [intros j []|]. intros p i e [].
  - intros k Hk. cbn in Hk. destruct k as [|[|k]]; [reflexivity | reflexivity | lia].
  - constructor.
Qed.
Lemma x_ends : argends x_si x_sg x_ce x_texp [4; 3].
Proof.
  destruct x_parts as [I1 I2]. constructor; rewrite ?I1; clear I1 I2.
  - split; [|split]; eexists; vm_compute; reflexivity.
  - intros pu e [<-|[]] He. cbn in He. destruct He as [-> | ->]; (split; [cbn; tauto|]); eexists; eexists; (split; [reflexivity|]; split; reflexivity).
Qed.
Lemma x_mixed : kcol x_si (ce_im x_ce) x_texp (pc_f x_pu) = Some (Scm3_n, 3, 1) /\ kcol x_si (ce_im x_ce) x_texp (pc_t x_pu) = Some (Stmpexp_n, 0, 3).
Proof. destruct x_parts as [-> _]. split; reflexivity. Qed.
(* the lookup holds in the table *)
Lemma x_holds i : i < 2 -> exists j, j < 2 /\ fmul (cellv (p_array x_cp) 0 i) (cellv (p_array x_cp) 1 i) = cellv (p_array x_kp) 1 j /\ cellv (p_array x_kp) 2 j = f1.
Proof. intros Hi. destruct i as [|[|i]]; [exists 0 | exists 1 | lia]; (split; [lia|]); split; vm_compute; reflexivity. Qed.
Lemma x_table : table_ok x_si x_sg x_tbl [] x_cp x_kp.
Proof. intros i ch j v _ []. Qed.
Lemma x_first : first_row_column x_si x_sg x_kp 0.
Proof. intros _ i Hi. destruct i as [|[|i]]; [reflexivity | reflexivity | cbn in Hi; lia]. Qed.
Definition x_setup : bool := let (t, br) := setup_consts ones 3 1 2 3 x_kp br_new in match t with Ok _ => true | _ => false end.
Lemma x_setups : x_setup = true. Proof. vm_compute. reflexivity. Qed.
Local Opaque setup_consts.
Theorem toy_mixed : exists tc br, machine 60 60 x_si x_sg x_tbl x_ids 5 3 x_ce x_pg /\ inputs ones 3 x_si x_cp x_kp tc br_new br /\ x_amach /\ argends x_si x_sg x_ce x_texp [4; 3] /\
  table_ok x_si x_sg x_tbl [] x_cp x_kp /\ first_row_column x_si x_sg x_kp 0 /\ In x_pu (st_pu x_sg) /\
  kcol x_si (ce_im x_ce) x_texp (pc_f x_pu) = Some (Scm3_n, 3, 1) /\ kcol x_si (ce_im x_ce) x_texp (pc_t x_pu) = Some (Stmpexp_n, 0, 3).
Proof.
  pose proof x_setups as HR. unfold x_setup in HR. destruct (setup_consts ones 3 1 2 3 x_kp br_new) as [[tc| | |] br] eqn:Es; try discriminate HR. clear HR.
  exists tc, br. split; [exact x_machine|]. split; [|split; [exact x_arg|]; split; [exact x_ends|]; split; [exact x_table|]; split; [exact x_first|]; split; [left; reflexivity | exact x_mixed]].
  constructor; [| | exact new_nice | exact Es].
  - split; [split; [reflexivity | repeat constructor]|]. split; [cbn; lia|]. split; reflexivity.
  - split; [split; [reflexivity | repeat constructor]|]. split; [cbn; lia | reflexivity].
Qed.

(* the machine of C80 *)
Lemma h_ends' : argends h_si h_sg h_ce h_texp [1; 0].
Proof.
  destruct h_parts as [I1 I2]. constructor; rewrite ?I1; clear I1 I2.
  - split; [|split]; eexists; vm_compute; reflexivity.
  - intros pu e [<-|[]] He. cbn in He. destruct He as [-> | ->]; (split; [cbn; tauto|]); eexists; eexists; (split; [reflexivity|]; split; reflexivity).
Qed.
Lemma h_same pu : In pu (st_pu h_sg) -> same_dims h_si h_ce h_texp pu.
Proof. intros [<-|[]]. unfold same_dims. destruct h_parts as [-> _]. eexists. eexists. eexists. eexists. eexists. split; reflexivity. Qed.
Theorem toy_honest : exists tc br, machine 40 40 h_si h_sg h_tbl h_ids 4 2 h_ce h_pg /\ inputs ones 3 h_si h_cp h_kp tc br_new br /\
  argmachine h_si h_sg h_tbl h_ids h_ce h_texp (fun _ => true) (fun _ => true) (fun _ => true) 40 [1; 0] [2; 3] [2; 3] 0 0 0 h_c2 h_c3 h_c3 h_R2 h_R3 h_R3 h_RA h_RT [6] 0 (fun _ => 0) (fun _ => (4, 5)) /\
  argends h_si h_sg h_ce h_texp [1; 0] /\ (forall pu, In pu (st_pu h_sg) -> same_dims h_si h_ce h_texp pu) /\ table_ok h_si h_sg h_tbl [6] h_cp h_kp /\ first_row_column h_si h_sg h_kp 0 /\
  chunks_ok h_si 2 /\ steps_ok (si_nbits_ext h_si) [1] /\
  exists p, stark_gen ones 2 h_si h_sg h_pg [2; 1] 3 h_cp h_kp tc br = Ok p.
Proof.
  destruct toy_arg as [tc [br [m0 [m [t1 [t2 [t3 [tr [br' [rc [p [A1 [A2 [A3 [A4 [A5 [_ [_ [A8 [A9 [_ [A11 _]]]]]]]]]]]]]]]]]]]]]].
  exists tc, br. split; [exact A1|]. split; [exact A2|]. split; [exact A3|]. split; [exact h_ends'|]. split; [exact h_same|]. split; [exact A4|]. split; [exact A5|]. split; [exact A8|]. split; [exact A9|].
  exists p. exact A11.
Qed.
