(* A machine of two rows whose lookup is generated, for the example of C83; no part of the code. *)
From Coq Require Import Ring Field Arith.
From Verif Require Import Base GlModel FrField F3gModel Cubic F3gProof ListAux PolyModel Roots PolyProof FftProof FftTop FriMath CodegenModel CodegenProof
  InterpModel InterpProof VerifierModel VerifierProof ImModel HashModel FftpModel FftpProof FftpBase FftpTop BrProof FriModel FriProof PolsModel PolsProof ProverModel ProverProof
  ParModel ParProof StarkMath StarkModel StarkGen StarkSrc StarkPoly StarkRow StarkQuot StarkEval StarkStep4 StarkTop StarkDone StarkToy StageModel StarkExtend StarkStages StarkPlain
  StageToy NStep NGen NTop ZStage DenRel ArgStages ArgHonest ArgRunToy MixToy HonestTable.
From Verif Require ArgModel ArgMath ArgRows ArgGen ArgTop.
Open Scope nat_scope.
Open Scope list_scope.
Open Scope res_scope.
Add Field K_field_gtoy : K_field.

(* the column a is (1, 2) and found in the fixed column t, which is (1, 2); a a' is the public 2; l1 is (1, 0).
   The expressions: a, t, a a' minus the public, and those generated: t, f, the first identity, the numerator, the denominator and the second identity.
   Columns 1 and 2 are h1 and h2, 3 is z, 4 and 5 are the numerator and denominator, which are intermediate. *)
Definition y_start : ArgModel.astate := ArgModel.mkA [E_cm 0 false; E_const 1 false; E_sub (E_mul (E_cm 0 false) (E_cm 0 true)) (E_new OPublic (Some 0) None [])] [2] 1 (mkCtx 0 [] []).
Definition y_look : ArgModel.lident := ArgModel.mkL (Some [0]) (Some [1]) None None.
Definition y_two : ArgModel.astate * list ArgModel.pcctx9 * (list instr * nat) := Eval vm_compute in match ArgModel.generate_step2 60 y_start [y_look] with Ok x => x | _ => (y_start, [], ([], 0)) end.
Definition y_out : ArgModel.step3out := Eval vm_compute in match ArgModel.generate_step3 60 (Some 0) (fst (fst y_two)) (snd (fst y_two)) [] [] with Ok o => o | _ => ArgModel.mkS3 y_start [] [] [] ([], 0) end.
Definition y_tbl : list expr := Eval vm_compute in ArgModel.a_exps (ArgModel.o_state y_out).
Definition y_ids : list nat := [2; 5; 8].
Definition y_ce : cexp := match gen_constraint 40 y_tbl y_ids 4 2 with Ok c => c | _ => mkCE [] [] 0 [] 0 end.
Definition y_si : sinfo := h_si.
Definition y_im : list (nat * nat) := [(6, 4); (7, 5)].
Definition y_texp : list (nat * nat) := [(3, 0); (4, 1)].
Definition y_gen (ids : list nat) : context := match gens y_tbl 40 ids (mkCtx 0 [] []) with Ok c => c | _ => mkCtx 0 [] [] end.
Definition y_c2 := y_gen [4; 3].
Definition y_c3 := y_gen [6; 7].
Definition y_seg (c : context) : segment := match fix_prover_code y_si y_im y_texp true (linear_code c) (x_tmp c) with Ok s => s | _ => mkSeg [] 0 end.
Definition y_s2 := y_seg y_c2.
Definition y_s3 := y_seg y_c3.
Definition y_pu : pcctx := mkPC 4 3 6 7.
Definition y_sg : stageprog := mkSG [mkPub PcmP 0 1] [] y_s2 y_s3 y_s3 [y_pu] [] []
  (fun e => match e with 3 => Ok 13 | 4 => Ok 14 | 6 => Ok 11 | 7 => Ok 12 | _ => Panic end) 1.
Definition y_pg : program := match gen_program 40 y_si y_ce with Ok p => p | _ => mkP (mkSeg [] 0) (mkSeg [] 0) [] [] (mkEV [] []) [] end.
Lemma y_con : gen_constraint 40 y_tbl y_ids 4 2 = Ok y_ce. Proof. vm_compute. reflexivity. Qed.
Lemma y_prog : gen_program 40 y_si y_ce = Ok y_pg. Proof. vm_compute. reflexivity. Qed.
Lemma y_parts : ce_im y_ce = y_im /\ ce_qs y_ce = [6]. Proof. vm_compute. split; reflexivity. Qed.
Local Opaque y_ce y_pg.

Lemma y_labs (P : node -> Prop) p i e : (forall v, P (N_new Nnumber 0 (Some 1%Z) v)) ->
  (forall c p, c = 0 /\ (i = 0 \/ i = 2) \/ (c = 1 \/ c = 2) /\ i = 7 \/ c = 3 /\ (i = 5 \/ i = 8) -> P (N_new Ncm c None p)) -> (forall c p, c = 1 /\ i = 1 \/ c = 0 /\ i = 5 -> P (N_new Nconst c None p)) ->
  (forall c p, c <= 7 -> P (N_new Nexp c None p)) -> (forall c p, (c = 2 \/ c = 3) /\ (i = 6 \/ i = 7) -> P (N_new Nchallenge c None p)) -> (forall p, i = 2 -> P (N_new Npublic 0 None p)) ->
  nth_error y_tbl i = Some e -> labs P false p e.
Proof.
  intros A B C D E F He. do 9 (destruct i as [|i]; [cbn [nth_error y_tbl] in He; injection He as <-; lab_all; cbn -[N_new]; try exact Logic.I; try (intros j Ej; injection Ej as <-);
    first [apply A | apply B; lia | apply C; lia | apply D; lia | apply E; lia | apply F; lia]|]).
  cbn [nth_error y_tbl] in He. destruct i; discriminate He.
Qed.
Lemma y_wf : Forall wf_e y_tbl. Proof. repeat constructor. Qed.
Definition y_R2 (k : bool * nat) : Prop := In k [(false, 0); (false, 4); (false, 1); (false, 3)].
Definition y_R3 (k : bool * nat) : Prop := In k [(false, 0); (false, 4); (false, 1); (false, 3); (true, 1); (true, 3); (false, 6); (false, 7)].
Lemma y_k2 s c : kwrites y_si y_im y_texp y_c2 s c = match s with Stmpexp_n => c <? 2 | _ => false end.
Proof.
  unfold kwrites. replace (exp_dests (linear_code y_c2)) with [(false, 0); (false, 4); (false, 1); (false, 3)] by (vm_compute; reflexivity).
  unfold covers. destruct s; try reflexivity. destruct c as [|[|c]]; reflexivity.
Qed.
Lemma y_k3 s c : kwrites y_si y_im y_texp y_c3 s c = match s with Stmpexp_n => c <? 2 | Scm3_n => (3 <=? c) && (c <? 9) | _ => false end.
Proof.
  unfold kwrites. replace (exp_dests (linear_code y_c3)) with [(false, 0); (false, 4); (false, 1); (false, 3); (true, 1); (true, 3); (false, 6); (false, 7)] by (vm_compute; reflexivity).
  unfold covers. destruct s; try reflexivity; do 10 (destruct c as [|c]; [reflexivity|]); reflexivity.
Qed.
Definition y_td2 (i : nat) : bool := false.
Definition y_td3 (i : nat) : bool := i <? 18.
Lemma y_typed td m seg : forallb (fun c => wnode y_si m td (i_dest c) || forallb (fun r => negb (wnode y_si m td r)) (i_src c)) (sg_first seg) = true -> Forall (typed y_si m td) (sg_first seg).
Proof.
  intros A. apply Forall_forall. intros c Hc Hd. apply Forall_forall. intros r Hr. rewrite forallb_forall in A. specialize (A c Hc). rewrite Hd in A. cbn [orb] in A.
  rewrite forallb_forall in A. specialize (A r Hr). apply negb_true_iff in A. exact A.
Qed.

Lemma y_nseg2 m : drawn y_sg 2 m -> nseg y_si Step2prev y_im y_texp y_td2 y_tbl 40 [4; 3] 0 y_c2 y_s2 y_R2 m.
Proof.
  intros _. constructor.
  - reflexivity.
  - vm_compute. reflexivity.
  - vm_compute. reflexivity.
  - exact y_wf.
  - constructor; [cbn; tauto|]. constructor; [cbn; tauto | constructor].
  - intros p i e HR He. assert (Hi : p = false /\ (i <= 4 /\ i <> 2)) by (each HR; (split; [reflexivity|]); lia). destruct Hi as [-> Hi]. split.
    + apply (y_labs _ false i e).
      * intros v. right. right. exact x_one.
      * intros c q Hc. right. right. assert (Hc' : c = 0) by lia. subst c. unfold lread. cbn [n_ty n_id N_new]. exists Scm1_n, 0, 1. split; [reflexivity|]. split; [|split; [now left|]].
        -- split; [now left|]. split; [now left|]. split; [reflexivity|]. cbn. lia.
        -- intros k _. rewrite y_k2. reflexivity.
      * intros c q Hc. right. right. unfold lread. cbn [n_ty n_id N_new]. split; [cbn; lia|]. split; [cbn; tauto|]. intros k. rewrite y_k2. reflexivity.
      * intros c q _. right. left. reflexivity.
      * intros c q Hc. exfalso. lia.
      * intros q Hc. exfalso. lia.
      * exact He.
    + each HR; cbn in He; injection He as <-; intros k Hk; cbn in Hk; unfold y_R2; cbn; tauto.
  - intros p i ty k HR Hk. each HR; cbn in Hk; try discriminate Hk; injection Hk as <- <-;
      (eexists; eexists; eexists; split; [reflexivity|]; split; [split; [first [now left | now right]|]; split; [cbn; tauto|]; split; [reflexivity|]; cbn; lia | cbn; tauto]).
  - intros p q i j s c H1 H2 X1 X2. assert (Hi : forall r i, y_R2 (r, i) -> i <= 4) by (intros r i' HR; each HR; lia).
    apply Hi in H1. apply Hi in H2. clear Hi.
    do 5 (destruct i as [|i]; [do 5 (destruct j as [|j]; [try reflexivity; destruct s; try discriminate X1; try discriminate X2; do 4 (destruct c as [|c]; [first [discriminate X1 | discriminate X2]|]); first [discriminate X1 | discriminate X2]|]); lia|]). lia.
  - apply y_typed. vm_compute. reflexivity.
  - intros i e HR He. each HR.
  - intros p i s pos e HR Hk Hs He. each HR; cbn in Hk; discriminate Hk.
Qed.
Lemma y_nseg3 st m : st = Step3prev \/ st = Step3 -> drawn y_sg 4 m -> nseg y_si st y_im y_texp y_td3 y_tbl 40 [6; 7] 0 y_c3 y_s3 y_R3 m.
Proof.
  intros Hst [_ [_ [Dl Dc]]].
  assert (Hin : forall s, In s [Scm1_n; Scm2_n; Scm3_n; Sconst_n; Sx_n] -> In s (step_in st)) by (intros s Hs; destruct Hst as [-> | ->]; exact Hs).
  assert (Hout : forall s, In s [Scm3_n; Stmpexp_n] -> In s (step_out st)) by (intros s Hs; destruct Hst as [-> | ->]; exact Hs).
  assert (Hio : forall s, In s [Scm1_n; Scm2_n; Scm3_n; Stmpexp_n] -> In s (step_in st ++ step_out st)) by (intros s Hs; destruct Hst as [-> | ->]; cbn in *; tauto).
  constructor.
  - destruct Hst as [-> | ->]; reflexivity.
  - vm_compute. reflexivity.
  - vm_compute. reflexivity.
  - exact y_wf.
  - constructor; [cbn; tauto|]. constructor; [cbn; tauto | constructor].
  - intros p i e HR He. assert (Hi : i <> 5 /\ i <> 8 /\ i <> 2) by (each HR; lia). split.
    + apply (y_labs _ p i e).
      * intros v. right. right. exact x_one.
      * intros c q Hc. right. right. assert (Hc' : c = 0 \/ c = 1 \/ c = 2) by lia. unfold lread. cbn [n_ty n_id N_new].
        destruct Hc' as [-> |[-> | ->]]; [exists Scm1_n, 0, 1 | exists Scm2_n, 0, 1 | exists Scm2_n, 1, 1]; (split; [reflexivity|]; split; [|split; [apply Hin; cbn; tauto|]]);
          try (intros k _; rewrite y_k3; reflexivity); (split; [now left|]; split; [apply Hio; cbn; tauto|]; split; [reflexivity|]; cbn; lia).
      * intros c q Hc. right. right. unfold lread. cbn [n_ty n_id N_new]. split; [cbn; lia|]. split; [apply Hin; cbn; tauto|]. intros k. rewrite y_k3. reflexivity.
      * intros c q _. right. left. reflexivity.
      * intros c q Hc. right. right. unfold lread. cbn [n_ty n_id N_new]. rewrite Dl. lia.
      * intros q Hc. exfalso. lia.
      * exact He.
    + each HR; cbn in He; injection He as <-; intros k Hk; cbn in Hk; unfold y_R3; cbn; tauto.
  - intros p i ty k HR Hk. each HR; cbn in Hk; try discriminate Hk; injection Hk as <- <-;
      (eexists; eexists; eexists; split; [reflexivity|]; split; [split; [first [now left | now right]|]; split; [apply Hio; cbn; tauto|]; split; [reflexivity|]; cbn; lia | apply Hout; cbn; tauto]).
  - intros p q i j s c H1 H2 X1 X2. assert (Hi : forall r i, y_R3 (r, i) -> i <= 7) by (intros r i' HR; each HR; lia).
    apply Hi in H1. apply Hi in H2. clear Hi Hin Hout Hio.
    do 8 (destruct i as [|i]; [do 8 (destruct j as [|j]; [try reflexivity; destruct s; try discriminate X1; try discriminate X2; do 9 (destruct c as [|c]; [first [discriminate X1 | discriminate X2]|]); first [discriminate X1 | discriminate X2]|]); lia|]). lia.
  - apply y_typed. vm_compute. reflexivity.
  - intros i e HR He. each HR; cbn in He; injection He as <-; lab_all; cbn; try exact Logic.I; intros j Ej; discriminate.
  - intros p i s pos e HR Hk Hs He. each HR; cbn in Hk; try discriminate Hk; injection Hk as <- <-; cbn in He; injection He as <-.
    + eapply W_right; [right; right; reflexivity | reflexivity|]. eapply W_right; [left; reflexivity | reflexivity|]. eapply W_challenge; [reflexivity | reflexivity|]. apply Dc. lia.
    + eapply W_left; [right; right; reflexivity | reflexivity|]. eapply W_right; [left; reflexivity | reflexivity|]. eapply W_left; [right; right; reflexivity | reflexivity|].
      eapply W_challenge; [reflexivity | reflexivity|]. apply Dc. lia.
Qed.
Lemma y_machine : machine 40 40 y_si y_sg y_tbl y_ids 4 2 y_ce y_pg.
Proof.
  destruct y_parts as [I1 I2]. constructor.
  - constructor; try rewrite I1; try rewrite I2; cbn [y_si h_si y_sg y_im st_publics si_nbits si_nbits_ext si_qdim si_width si_cm_2ns si_map length].
    + lia.
    + exact y_con.
    + split; [discriminate|]. cbn. lia.
    + exact y_prog.
    + split; [exact y_wf|]. intros p. apply Forall_forall. intros e He. apply In_nth_error in He. destruct He as [i He]. apply (y_labs _ p i e).
      * intros v. exact x_one.
      * intros c q Hc. cbn. lia.
      * intros c q Hc. cbn. lia.
      * intros c q Hc. cbn. lia.
      * intros c q Hc. split; [cbn; lia | discriminate].
      * intros q _. cbn. lia.
      * exact He.
    + repeat constructor; cbn; lia.
    + left. reflexivity.
    + repeat split; reflexivity.
    + intros p Hp. destruct p as [|p]; [|cbn in Hp; lia]. exists 6. split; reflexivity.
    + intros E. discriminate E.
  - cbn. lia.
  - rewrite I1. clear I1 I2. constructor.
    + intros a b [E|[E|[E|[]]]]; injection E as <- <-; (split; [reflexivity|]); apply h_ops; cbn; lia.
    + apply h_ops. cbn. lia.
    + split; [reflexivity|]. apply h_ops. cbn. lia.
    + intros c Hc. cbn [y_im length Nat.add] in Hc.
      destruct c as [|[|[|[|[|[|c]]]]]]; [exists Scm1_n, Scm1_2ns, 0, 1, 0 | exists Scm2_n, Scm2_2ns, 0, 1, 1 | exists Scm2_n, Scm2_2ns, 1, 1, 2 | exists Scm3_n, Scm3_2ns, 0, 3, 3
        | exists Scm3_n, Scm3_2ns, 3, 3, 4 | exists Scm3_n, Scm3_2ns, 6, 3, 5 | lia];
      (split; [cbn; tauto|]); (split; [reflexivity|]); (split; [reflexivity|]); (split; [reflexivity|]); (split; [first [now left | now right] | cbn; lia]).
  - constructor.
  - intros c p s pos dim Hc Hp Hm. cbn in Hc. destruct c as [|[|[|c]]]; try lia; cbn in Hp; injection Hp as <-; cbn in Hm; congruence.
  - intros c p s pos dim Hc Hp Hm. cbn in Hc. destruct c as [|[|[|[|c]]]]; try lia; cbn in Hp; injection Hp as <-; cbn in Hm; congruence.
Qed.
Definition y_RA (k : bool * nat) : Prop := In k [(false, 2); (false, 5); (false, 8); (false, 0); (false, 4); (false, 1); (false, 3); (true, 1); (true, 3); (false, 6); (false, 7)].
Definition y_RT (k : bool * nat) : Prop := In k [(false, 2); (false, 0); (false, 1); (true, 1)].
Local Notation y_amach := (argmachine y_si y_sg y_tbl y_ids y_ce y_texp y_td2 y_td3 y_td3 40 [4; 3] [6; 7] [6; 7] 0 0 0 y_c2 y_c3 y_c3 y_R2 y_R3 y_R3 y_RA y_RT [2] 0 (fun _ => 0) (fun _ => (5, 8))).
Lemma y_arg : y_amach.
Proof.
  destruct y_parts as [I1 I2]. constructor; rewrite ?I1; clear I1 I2.
  - exact y_nseg2.
  - intros m. apply y_nseg3. now left.
  - intros m. apply y_nseg3. now right.
  - split; [repeat constructor; cbn; intuition discriminate|]. intros k Hk. cbn in *. tauto.
  - intros p i e HR He. assert (Hi : i <> 5 /\ i <> 8) by (each HR; split; lia). apply (y_labs _ p i e); try exact He; try (intros; discriminate).
    intros c q Hc _ pos dim. cbn [n_id N_new]. assert (Hc' : c = 0 \/ c = 1 \/ c = 2) by lia. destruct Hc' as [-> |[-> | ->]]; cbn; discriminate.
  - intros t pu Ht. destruct t as [|t]; [|destruct t; discriminate Ht]. injection Ht as <-.
    assert (P : forall e, e = 3 \/ e = 4 -> pol_dim1 y_si y_sg e).
    { intros e He id s pos dim X Y. destruct He as [-> | ->]; cbn in X; apply ok_inj in X; subst id; cbn in Y; congruence. }
    assert (Q : forall e, e = 3 \/ e = 4 -> pol_in y_si y_sg e).
    { intros e He id X. destruct He as [-> | ->]; cbn in X; apply ok_inj in X; subst id; [exists Stmpexp_n, 0, 1 | exists Stmpexp_n, 1, 1]; (split; [reflexivity|]; split; [now right|]; split; [now left | cbn; lia]). }
    split; [exists 0, 1 | split; [exists 1, 1 | split; apply Q; cbn; lia]]; (split; [reflexivity|]; split; [right; split; [reflexivity|]; split; apply P; cbn; lia | cbn; lia]).
  - intros t Ht. cbn in Ht. replace t with 0 by lia. split; [reflexivity | cbn; lia].
  - intros t t' Ht Ht'. cbn in Ht, Ht'. lia.
  - intros t k _ Hk. rewrite !y_k3. do 3 (destruct k as [|k]; [split; reflexivity|]). lia.
  - intros o e Ho He. destruct Ho as [<-|[]]. cbn in He. destruct He as [-> | ->]; (split; [cbn; tauto|]); eexists; eexists; (split; [reflexivity|]; split; reflexivity).
  - intros t o Ht. destruct t as [|t]; [|destruct t; discriminate Ht]. injection Ht as <-. split; reflexivity.
  - intros j [<-|[<-|[<-|[]]]]; [left; now left | right; exists 0; split; [cbn; lia | now left] | right; exists 0; split; [cbn; lia | now right]].
  - intros p. apply Forall_forall. intros e He. apply In_nth_error in He. destruct He as [i He]. apply (y_labs _ p i e); try exact He; try (intros; discriminate). intros c q Hc _. cbn. lia.
  - split; [intros j [<-|[<-|[<-|[]]]]; cbn; tauto|]. split; [intros k [<-|[<-|[]]]; cbn; tauto|].
    intros p i HR. split; [each HR; cbn; lia|]. intros e He k Hk. each HR; cbn in He; injection He as <-; cbn in Hk; unfold y_RA; cbn; tauto.
  - intros k e HR He. each HR; cbn in He; injection He as <-; lab_all; cbn; try exact Logic.I; intros j Ej; (split; [reflexivity | discriminate]).
  - split; [intros j [<-|[]]; now left|]. intros p i e HR He. split.
    + assert (Hi : i < 3) by (each HR; lia). apply (y_labs _ p i e); try exact He; try (intros; discriminate). intros c q Hc _. cbn. lia.
    + each HR; cbn in He; injection He as <-; intros k Hk; cbn in Hk; destruct Hk.
  - intros k Hk. cbn in Hk. replace k with 0 by lia. reflexivity.
  - repeat constructor; cbn; lia.
Qed.
Lemma y_ends : argends y_si y_sg y_ce y_texp [4; 3].
Proof.
  destruct y_parts as [I1 I2]. constructor; rewrite ?I1; clear I1 I2.
  - split; [|split]; eexists; vm_compute; reflexivity.
  - intros pu e [<-|[]] He. cbn in He. destruct He as [-> | ->]; (split; [cbn; tauto|]); eexists; eexists; (split; [reflexivity|]; split; reflexivity).
Qed.
Lemma y_same pu : In pu (st_pu y_sg) -> same_dims y_si y_ce y_texp pu.
Proof. intros [<-|[]]. unfold same_dims. destruct y_parts as [-> _]. eexists. eexists. eexists. eexists. eexists. split; reflexivity. Qed.
Lemma y_generated : generated y_si y_sg y_tbl 0 60 y_start [y_look] (fst (fst y_two)) (snd (fst y_two)) (snd y_two) [] [] y_out.
Proof.
  constructor.
  - vm_compute. reflexivity.
  - vm_compute. reflexivity.
  - apply ArgGen.pre_refl.
  - reflexivity.
  - reflexivity.
  - reflexivity.
  - reflexivity.
  - intros a b s p d p' d' Ha Hb Hab E1 E2. cbn in Ha, Hb. assert (Ha' : a = 1 \/ a = 2) by lia. assert (Hb' : b = 1 \/ b = 2) by lia.
    destruct Ha' as [-> | ->], Hb' as [-> | ->]; try (exfalso; apply Hab; reflexivity); cbn in E1, E2; injection E1 as <- <- <-; injection E2 as <- <-; lia.
  - intros p. apply Forall_forall. intros e He. apply In_nth_error in He. destruct He as [i He]. apply (y_labs _ p i e); try exact He; try (intros; intros X; discriminate X).
    intros v _. exists 1%Z. split; [reflexivity|]. vm_compute. discriminate.
Qed.
Definition y_col (i : nat) : list K := [kconst (nth i [f1; t_two] f0)].
Lemma y_colF : tcols y_si y_sg y_tbl h_cp h_kp y_RT false [0] y_col.
Proof.
  split; [constructor; [cbn; tauto | constructor]|]. intros ch i Hi. cbn [ArgGen.at_row]. constructor; [|constructor].
  eexists. split; [eapply D_exp; [reflexivity | reflexivity | reflexivity | reflexivity|]; apply (D_cm _ _ _ (E_cm 0 false)); reflexivity|].
  unfold table_row. rewrite of_k_val. destruct i as [|[|i]]; [reflexivity | reflexivity | cbn in Hi; lia].
Qed.
Lemma y_colT p : tcols y_si y_sg y_tbl h_cp h_kp y_RT p [1] y_col.
Proof.
  split; [constructor; [destruct p; cbn; tauto | constructor]|]. intros ch i Hi. constructor; [|constructor].
  eexists. split; [eapply D_exp; [reflexivity | reflexivity | reflexivity | reflexivity|]; apply (D_const _ _ _ (E_const 1 false)); reflexivity|].
  unfold table_row. rewrite of_k_val. destruct p; (destruct i as [|[|i]]; [reflexivity | reflexivity | cbn in Hi; lia]).
Qed.
Lemma y_holds pi : In pi [y_look] -> lookup_holds y_si y_sg y_tbl h_cp h_kp y_RT pi.
Proof.
  intros [<-|[]]. exists y_col, y_col, (fun _ => kone), (fun _ => kone), [0], [1]. split; [reflexivity|]. split; [discriminate|]. split; [exact y_colF|]. split; [reflexivity|]. split; [discriminate|].
  split; [exact y_colT|]. split; [split; [intros j E; discriminate E | intros ch i _; reflexivity]|]. split; [intros p; split; [intros j E; discriminate E | intros ch i _; reflexivity]|].
  split; [intros i _; split; right; reflexivity|]. intros i Hi _. exists i. split; [exact Hi|]. split; reflexivity.
Qed.
Lemma y_table : table_ok y_si y_sg y_tbl [2] h_cp h_kp.
Proof.
  intros i ch j v Hi Hj Hd. set (rho := table_row y_si h_cp h_kp (map (pub_value h_cp) (st_publics y_sg)) ch i) in *.
  assert (T2 : val (of_k (kconst t_two)) = kconst t_two) by apply of_k_val. assert (T1 : val (of_k (kconst f1)) = kone) by (rewrite of_k_val; apply kconst_1).
  assert (A3 : val (rho (N_new Npublic 0 None false)) = kconst t_two).
  { unfold rho, table_row. cbn [n_ty n_id N_new]. rewrite of_k_val. cbn [nth map y_sg st_publics]. unfold pub_value. cbn [h_cp p_array pb_pol pb_idx cellv nth]. apply val_from. }
  assert (W : val (rho (N_new Ncm 0 None false)) = kone /\ val (rho (N_new Ncm 0 None true)) = kconst t_two \/ val (rho (N_new Ncm 0 None false)) = kconst t_two /\ val (rho (N_new Ncm 0 None true)) = kone).
  { unfold rho, table_row. cbn [n_ty n_id n_prime N_new nPols h_cp Nat.ltb Nat.leb p_array]. destruct i as [|[|i]]; [left; split; [exact T1 | exact T2] | right; split; [exact T2 | exact T1] | cbn in Hi; lia]. }
  clearbody rho. destruct Hj as [<-|[]].
  assert (D : den y_tbl rho false (E_exp 2 false) (e_sub (e_mul (rho (N_new Ncm 0 None false)) (rho (N_new Ncm 0 None true))) (rho (N_new Npublic 0 None false)))).
  { eapply D_exp; [reflexivity | reflexivity | reflexivity | reflexivity|]. eapply D_sub; [reflexivity | reflexivity | |apply (D_public _ _ _ (E_new OPublic (Some 0) None [])); reflexivity].
    eapply D_mul; [reflexivity | reflexivity | |]; [apply (D_cm _ _ _ (E_cm 0 false)) | apply (D_cm _ _ _ (E_cm 0 true))]; reflexivity. }
  rewrite (den_fun _ _ _ _ _ Hd _ D), val_sub, val_mul, A3. destruct W as [[-> ->]|[-> ->]]; ring.
Qed.
Lemma y_first : first_row_column y_si y_sg h_kp 0.
Proof. intros _ i Hi. destruct i as [|[|i]]; [reflexivity | reflexivity | cbn in Hi; lia]. Qed.
Definition y_run : res (mem * tree * tree * tree * transcript * brstate) := let (t, br) := setup_consts ones 3 1 2 2 h_kp br_new in do tc <- t; do m0 <- start_mem y_si h_cp h_kp tc; stages ones 2 y_si y_sg m0 br.
Lemma y_runs : match y_run with Ok _ => true | _ => false end = true. Proof. vm_compute. reflexivity. Qed.
Local Opaque stages start_mem setup_consts.

Theorem toy_table : exists tc br m0 m, machine 40 40 y_si y_sg y_tbl y_ids 4 2 y_ce y_pg /\ inputs ones 3 y_si h_cp h_kp tc br_new br /\ y_amach /\ argends y_si y_sg y_ce y_texp [4; 3] /\
  generated y_si y_sg y_tbl 0 60 y_start [y_look] (fst (fst y_two)) (snd (fst y_two)) (snd y_two) [] [] y_out /\
  (forall pu, In pu (st_pu y_sg) -> same_dims y_si y_ce y_texp pu) /\ table_ok y_si y_sg y_tbl [2] h_cp h_kp /\ first_row_column y_si y_sg h_kp 0 /\
  (forall pi, In pi [y_look] -> lookup_holds y_si y_sg y_tbl h_cp h_kp y_RT pi) /\ chunks_ok y_si 2 /\ steps_ok (si_nbits_ext y_si) [1] /\
  start_mem y_si h_cp h_kp tc = Ok m0 /\ stages ones 2 y_si y_sg m0 br = Ok m.
Proof.
  assert (S1 : steps_ok (si_nbits_ext y_si) [1]).
  { cbn [steps_ok y_si h_si si_nbits_ext]. split; [lia|]. split; [lia|]. split; [|exact Logic.I]. apply Nat.leb_le. vm_compute. reflexivity. }
  pose proof y_runs as HR. unfold y_run in HR. destruct (setup_consts ones 3 1 2 2 h_kp br_new) as [[tc| | |] br] eqn:Es; try discriminate HR. rewrite bindE in HR.
  destruct (start_mem y_si h_cp h_kp tc) as [m0| | |] eqn:Em; try discriminate HR. rewrite bindE in HR.
  destruct (stages ones 2 y_si y_sg m0 br) as [m| | |] eqn:Eg; try discriminate HR. clear HR.
  exists tc, br, m0, m. split; [exact y_machine|]. split.
  { constructor; [| | exact new_nice | exact Es].
    - split; [exact h_shaped1|]. split; [cbn; lia|]. split; reflexivity.
    - split; [exact h_shaped2|]. split; [cbn; lia | reflexivity]. }
  split; [exact y_arg|]. split; [exact y_ends|]. split; [exact y_generated|]. split; [exact y_same|]. split; [exact y_table|]. split; [exact y_first|]. split; [exact y_holds|]. split; [exact h_chunks|]. split; [exact S1|].
  split; [exact Em | exact Eg].
Qed.
