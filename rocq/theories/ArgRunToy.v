(* A machine of two rows with a lookup, for the example of C80; no part of the code. *)
From Coq Require Import Ring Field Arith.
From Verif Require Import Base GlModel FrField F3gModel Cubic F3gProof ListAux PolyModel Roots PolyProof FftProof FftTop FriMath CodegenModel CodegenProof
  InterpModel InterpProof VerifierModel VerifierProof ImModel HashModel FftpModel FftpProof FftpBase FftpTop BrProof FriModel FriProof PolsModel PolsProof ProverModel ProverProof
  ParModel ParProof StarkMath StarkModel StarkGen StarkSrc StarkPoly StarkRow StarkQuot StarkEval StarkStep4 StarkTop StarkDone StarkToy StageModel StarkExtend StarkStages StarkPlain
  StageToy NStep NGen NTop ZStage DenRel ArgStages.
From Verif Require ArgModel ArgMath ArgTop.
Open Scope nat_scope.
Open Scope list_scope.
Open Scope res_scope.
Add Field K_field_atoy : K_field.

(* the column a is (1, 2) and found in the fixed column t, which is (1, 2); a a' is the public 2; l1 is (1, 0).
   The expressions: t, a, the numerator and the denominator of the lookup, its two identities, the other identity.
   Columns 1 and 2 are h1 and h2, 3 is z, 4 and 5 are the numerator and denominator, which are intermediate. *)
Definition h_tbl : list expr :=
  [E_const 1 false; E_cm 0 false; ArgModel.lookup_num 1 0; ArgModel.lookup_den 1 2; ArgModel.first_exp 0 3; ArgModel.step_exp 3 2 3;
   E_sub (E_mul (E_cm 0 false) (E_cm 0 true)) (E_new OPublic (Some 0) None [])].
Definition h_ids : list nat := [6; 4; 5].
Definition h_ce : cexp := match gen_constraint 40 h_tbl h_ids 4 2 with Ok c => c | _ => mkCE [] [] 0 [] 0 end.
Definition h_si : sinfo := mkSI
  [(Scm1_2ns, 0, 1); (Scm2_2ns, 0, 1); (Scm2_2ns, 1, 1); (Scm3_2ns, 0, 3); (Scm3_2ns, 3, 3); (Scm3_2ns, 6, 3); (Scm4_2ns, 0, 3);
   (Scm1_n, 0, 1); (Scm2_n, 0, 1); (Scm2_n, 1, 1); (Scm3_n, 0, 3); (Scm3_n, 3, 3); (Scm3_n, 6, 3); (Stmpexp_n, 0, 1); (Stmpexp_n, 1, 1)]
  [7; 8; 9; 10; 11; 12] [0; 1; 2; 3; 4; 5; 6] [13; 14]
  (fun s => match s with Scm1_n | Scm1_2ns => 1 | Scm2_n | Scm2_2ns | Stmpexp_n => 2 | Scm3_n | Scm3_2ns => 9 | Scm4_n | Scm4_2ns | Sq_2ns | Sf_2ns => 3 | _ => 0 end) 2 3 1 2.
Definition h_im : list (nat * nat) := [(2, 4); (3, 5)].
Definition h_texp : list (nat * nat) := [(0, 0); (1, 1)].
Definition h_gen (ids : list nat) : context := match gens h_tbl 40 ids (mkCtx 0 [] []) with Ok c => c | _ => mkCtx 0 [] [] end.
Definition h_c2 := h_gen [1; 0].
Definition h_c3 := h_gen [2; 3].
Definition h_seg (c : context) : segment := match fix_prover_code h_si h_im h_texp true (linear_code c) (x_tmp c) with Ok s => s | _ => mkSeg [] 0 end.
Definition h_s2 := h_seg h_c2.
Definition h_s3 := h_seg h_c3.
Definition h_pu : pcctx := mkPC 1 0 2 3.
Definition h_sg : stageprog := mkSG [mkPub PcmP 0 1] [] h_s2 h_s3 h_s3 [h_pu] [] []
  (fun e => match e with 0 => Ok 13 | 1 => Ok 14 | 2 => Ok 11 | 3 => Ok 12 | _ => Panic end) 1.
Definition h_cp : pols := mkPols 1 2 [[f1; t_two]].
Definition h_kp : pols := mkPols 2 2 [[f1; f0]; [f1; t_two]].
Definition h_pg : program := match gen_program 40 h_si h_ce with Ok p => p | _ => mkP (mkSeg [] 0) (mkSeg [] 0) [] [] (mkEV [] []) [] end.
Lemma h_con : gen_constraint 40 h_tbl h_ids 4 2 = Ok h_ce. Proof. vm_compute. reflexivity. Qed.
Lemma h_prog : gen_program 40 h_si h_ce = Ok h_pg. Proof. vm_compute. reflexivity. Qed.
Lemma h_parts : ce_im h_ce = h_im /\ ce_qs h_ce = [6]. Proof. vm_compute. split; reflexivity. Qed.
Local Opaque h_ce h_pg.

(* every reference in the table satisfies P if these do *)
Lemma h_labs (P : node -> Prop) : (forall v, P (N_new Nnumber 0 (Some 1%Z) v)) -> (forall c p, c <= 5 -> P (N_new Ncm c None p)) -> (forall c p, c <= 1 -> P (N_new Nconst c None p)) ->
  (forall c p, c <= 3 -> P (N_new Nexp c None p)) -> (forall c p, c = 2 \/ c = 3 -> P (N_new Nchallenge c None p)) -> (forall p, P (N_new Npublic 0 None p)) ->
  forall p, Forall (labs P false p) h_tbl.
Proof.
  intros A B C D E F p.
  repeat match goal with
  | |- Forall _ _ => constructor
  | |- labs _ _ _ _ => constructor
  end; cbn -[N_new]; try exact Logic.I; try (intros j Ej; injection Ej as <-); first [apply A | apply B; lia | apply C; lia | apply D; lia | apply E; lia | apply F].
Qed.
(* the references of the first four expressions *)
Lemma h_labs4 (P : node -> Prop) p i e : (forall v, P (N_new Nnumber 0 (Some 1%Z) v)) -> (forall c p, c = 0 /\ i = 1 \/ (c = 1 \/ c = 2) /\ i = 3 -> P (N_new Ncm c None p)) -> (forall p, P (N_new Nconst 1 None p)) ->
  (forall c p, c <= 3 -> P (N_new Nexp c None p)) -> (forall c p, c = 2 \/ c = 3 -> i = 2 \/ i = 3 -> P (N_new Nchallenge c None p)) ->
  i < 4 -> nth_error h_tbl i = Some e -> labs P false p e.
Proof.
  intros A B C D E Hi He. destruct i as [|[|[|[|i]]]]; [| | | |lia]; cbn [nth_error h_tbl] in He; injection He as <-;
  repeat match goal with
  | |- Forall _ _ => constructor
  | |- labs _ _ _ _ => constructor
  end; cbn -[N_new]; try exact Logic.I; try (intros j Ej; injection Ej as <-); first [apply A | apply B; lia | apply C; lia | apply D; lia | apply E; lia].
Qed.
Lemma h_one : exists v, number_ref (Some 1%Z) = Ok v. Proof. eexists. vm_compute. reflexivity. Qed.
Lemma h_wf : Forall wf_e h_tbl. Proof. repeat constructor. Qed.
Definition h_R2 (k : bool * nat) : Prop := In k [(false, 1); (false, 0)].
Definition h_R3 (k : bool * nat) : Prop := In k [(false, 2); (false, 3); (false, 1); (false, 0); (true, 0)].
Lemma h_k2 s c : kwrites h_si h_im h_texp h_c2 s c = match s with Stmpexp_n => c <? 2 | _ => false end.
Proof.
  unfold kwrites. replace (exp_dests (linear_code h_c2)) with [(false, 1); (false, 0)] by (vm_compute; reflexivity).
  unfold covers. destruct s; try reflexivity. destruct c as [|[|c]]; reflexivity.
Qed.
Lemma h_k3 s c : kwrites h_si h_im h_texp h_c3 s c = match s with Stmpexp_n => c <? 2 | Scm3_n => (3 <=? c) && (c <? 9) | _ => false end.
Proof.
  unfold kwrites. replace (exp_dests (linear_code h_c3)) with [(false, 1); (false, 0); (true, 0); (false, 2); (false, 3)] by (vm_compute; reflexivity).
  unfold covers. destruct s; try reflexivity.
  - do 9 (destruct c as [|c]; [reflexivity|]). reflexivity.
  - destruct c as [|[|c]]; reflexivity.
Qed.
Lemma h_typed m seg : forallb (fun c => wnode h_si m (fun _ => true) (i_dest c) || forallb (fun r => negb (wnode h_si m (fun _ => true) r)) (i_src c)) (sg_first seg) = true ->
  Forall (typed h_si m (fun _ => true)) (sg_first seg).
Proof.
  intros A. apply Forall_forall. intros c Hc Hd. apply Forall_forall. intros r Hr. rewrite forallb_forall in A. specialize (A c Hc). rewrite Hd in A. cbn [orb] in A.
  rewrite forallb_forall in A. specialize (A r Hr). apply negb_true_iff in A. exact A.
Qed.

Lemma h_nseg2 m : drawn h_sg 2 m -> nseg h_si Step2prev h_im h_texp (fun _ => true) h_tbl 40 [1; 0] 0 h_c2 h_s2 h_R2 m.
Proof.
  intros _. constructor.
  - reflexivity.
  - vm_compute. reflexivity.
  - vm_compute. reflexivity.
  - exact h_wf.
  - constructor; [now left|]. constructor; [right; now left | constructor].
  - intros p i e HR He. assert (Hi : p = false /\ (i = 0 \/ i = 1)) by (destruct HR as [E|[E|[]]]; injection E as <- <-; tauto). split.
    + apply (h_labs4 _ p i e); try assumption; try lia.
      * intros v. right. right. exact h_one.
      * intros c q Hc. right. right. replace c with 0 by lia. unfold lread. cbn [n_ty n_id N_new]. exists Scm1_n, 0, 1. split; [reflexivity|]. split; [|split; [now left|]].
        -- split; [now left|]. split; [now left|]. split; [reflexivity|]. cbn. lia.
        -- intros k _. rewrite h_k2. reflexivity.
      * intros q. right. right. unfold lread. cbn [n_ty n_id N_new]. split; [cbn; lia|]. split; [cbn; tauto|]. intros k. rewrite h_k2. reflexivity.
      * intros c q _. right. left. reflexivity.
    + destruct Hi as [-> [-> | ->]]; cbn in He; injection He as <-; intros k Hk; cbn in Hk; destruct Hk.
  - intros p i ty k HR Hk. destruct HR as [E|[E|[]]]; injection E as <- <-; cbn in Hk; injection Hk as <- <-;
      (eexists; eexists; eexists; split; [reflexivity|]; split; [split; [now left|]; split; [cbn; tauto|]; split; [reflexivity|]; cbn; lia | cbn; tauto]).
  - intros p q i j s c H1 H2 E1 E2. destruct H1 as [E|[E|[]]]; injection E as <- <-; destruct H2 as [E|[E|[]]]; injection E as <- <-; try reflexivity;
      destruct s; try discriminate E1; destruct c as [|[|c]]; first [discriminate E1 | discriminate E2].
  - apply h_typed. vm_compute. reflexivity.
  - intros i e HR He. destruct HR as [E|[E|[]]]; discriminate E.
  - intros p i s pos e HR Hk. destruct HR as [E|[E|[]]]; injection E as <- <-; cbn in Hk; discriminate Hk.
Qed.
Lemma h_nseg3 st m : st = Step3prev \/ st = Step3 -> drawn h_sg 4 m -> nseg h_si st h_im h_texp (fun _ => true) h_tbl 40 [2; 3] 0 h_c3 h_s3 h_R3 m.
Proof.
  intros Hst [_ [_ [Dl Dc]]].
  assert (Hin : forall s, In s [Scm1_n; Scm2_n; Scm3_n; Sconst_n; Sx_n] -> In s (step_in st)) by (intros s Hs; destruct Hst as [-> | ->]; exact Hs).
  assert (Hout : forall s, In s [Scm3_n; Stmpexp_n] -> In s (step_out st)) by (intros s Hs; destruct Hst as [-> | ->]; exact Hs).
  assert (Hio : forall s, In s [Scm1_n; Scm2_n; Scm3_n; Stmpexp_n] -> In s (step_in st ++ step_out st)) by (intros s Hs; destruct Hst as [-> | ->]; cbn in *; tauto).
  constructor.
  - destruct Hst as [-> | ->]; reflexivity.
  - vm_compute. reflexivity.
  - vm_compute. reflexivity.
  - exact h_wf.
  - constructor; [now left|]. constructor; [right; now left | constructor].
  - intros p i e HR He. assert (Hi : i < 4) by (destruct HR as [E|[E|[E|[E|[E|[]]]]]]; injection E as <- <-; lia). split.
    + apply (h_labs4 _ p i e); try assumption.
      * intros v. right. right. exact h_one.
      * intros c q Hc. right. right. unfold lread. cbn [n_ty n_id N_new]. destruct Hc as [[-> _]|[[-> | ->] _]];
          [exists Scm1_n, 0, 1 | exists Scm2_n, 0, 1 | exists Scm2_n, 1, 1]; (split; [reflexivity|]; split; [|split; [apply Hin; cbn; tauto|]]);
          try (intros k _; rewrite h_k3; reflexivity); (split; [now left|]; split; [apply Hio; cbn; tauto|]; split; [reflexivity|]; cbn; lia).
      * intros q. right. right. unfold lread. cbn [n_ty n_id N_new]. split; [cbn; lia|]. split; [apply Hin; cbn; tauto|]. intros k. rewrite h_k3. reflexivity.
      * intros c q _. right. left. reflexivity.
      * intros c q Hc _. right. right. unfold lread. cbn [n_ty n_id N_new]. rewrite Dl. lia.
    + destruct HR as [E|[E|[E|[E|[E|[]]]]]]; injection E as <- <-; cbn in He; injection He as <-; intros k Hk; cbn in Hk; unfold h_R3; cbn; tauto.
  - intros p i ty k HR Hk. destruct HR as [E|[E|[E|[E|[E|[]]]]]]; injection E as <- <-; cbn in Hk; injection Hk as <- <-;
      (eexists; eexists; eexists; split; [reflexivity|]; split; [split; [first [now left | now right]|]; split; [apply Hio; cbn; tauto|]; split; [reflexivity|]; cbn; lia | apply Hout; cbn; tauto]).
  - intros p q i j s c H1 H2 X1 X2.
    assert (Hi : forall r i, h_R3 (r, i) -> i = 0 \/ i = 1 \/ i = 2 \/ i = 3) by (intros r i' HR; destruct HR as [E|[E|[E|[E|[E|[]]]]]]; injection E as <- <-; tauto).
    apply Hi in H1. apply Hi in H2. clear Hi. destruct H1 as [-> |[-> |[-> | ->]]], H2 as [-> |[-> |[-> | ->]]]; try reflexivity;
      destruct s; try discriminate X1; try discriminate X2; do 9 (destruct c as [|c]; [first [discriminate X1 | discriminate X2]|]); first [discriminate X1 | discriminate X2].
  - apply h_typed. vm_compute. reflexivity.
  - intros i e HR He. destruct HR as [E|[E|[E|[E|[E|[]]]]]]; try discriminate E. injection E as <-. cbn in He. injection He as <-.
    repeat match goal with |- Forall _ _ => constructor | |- labs _ _ _ _ => constructor end; cbn; intros j Ej; discriminate.
  - intros p i s pos e HR Hk Hs He. destruct HR as [E|[E|[E|[E|[E|[]]]]]]; injection E as <- <-; cbn in Hk; try discriminate Hk; cbn in He; injection He as <-.
    + eapply W_right; [right; right; reflexivity | reflexivity|]. eapply W_right; [left; reflexivity | reflexivity|]. eapply W_challenge; [reflexivity | reflexivity|]. apply Dc. lia.
    + eapply W_left; [right; right; reflexivity | reflexivity|]. eapply W_right; [left; reflexivity | reflexivity|]. eapply W_left; [right; right; reflexivity | reflexivity|].
      eapply W_challenge; [reflexivity | reflexivity|]. apply Dc. lia.
Qed.
Lemma h_ops k : k <= 9 -> k <= MAX_OPS.
Proof. intros H. etransitivity; [exact H|]. apply Nat.leb_le. vm_compute. reflexivity. Qed.
Lemma h_machine : machine 40 40 h_si h_sg h_tbl h_ids 4 2 h_ce h_pg.
Proof.
  destruct h_parts as [I1 I2]. constructor.
  - constructor; try rewrite I1; try rewrite I2; cbn [h_si h_sg h_im st_publics si_nbits si_nbits_ext si_qdim si_width si_cm_2ns si_map length].
    + lia.
    + exact h_con.
    + split; [discriminate|]. cbn. lia.
    + exact h_prog.
    + split; [exact h_wf|]. apply h_labs.
      * intros v. exact h_one.
      * intros c p Hc. cbn. lia.
      * intros c p Hc. cbn. lia.
      * intros c p Hc. cbn. lia.
      * intros c p Hc. split; [cbn; lia | discriminate].
      * intros p. cbn. lia.
    + repeat constructor; cbn; lia.
    + left. reflexivity.
    + repeat split; reflexivity.
    + intros p Hp. destruct p as [|p]; [|cbn in Hp; lia]. exists 6. split; reflexivity.
    + intros E. discriminate E.
  - cbn. lia.
  - rewrite I1. constructor.
    + intros a b [E|[E|[E|[]]]]; injection E as <- <-; (split; [reflexivity|]); apply h_ops; cbn; lia.
    + apply h_ops. cbn. lia.
    + split; [reflexivity|]. apply h_ops. cbn. lia.
    + intros c Hc. cbn [h_im length Nat.add] in Hc.
      destruct c as [|[|[|[|[|[|c]]]]]]; [exists Scm1_n, Scm1_2ns, 0, 1, 0 | exists Scm2_n, Scm2_2ns, 0, 1, 1 | exists Scm2_n, Scm2_2ns, 1, 1, 2 | exists Scm3_n, Scm3_2ns, 0, 3, 3
        | exists Scm3_n, Scm3_2ns, 3, 3, 4 | exists Scm3_n, Scm3_2ns, 6, 3, 5 | lia];
      (split; [cbn; tauto|]); (split; [reflexivity|]); (split; [reflexivity|]); (split; [reflexivity|]); (split; [first [now left | now right] | cbn; lia]).
  - constructor.
  - intros c p s pos dim Hc Hp Hm. cbn in Hc. destruct c as [|[|[|c]]]; try lia; cbn in Hp; injection Hp as <-; cbn in Hm; congruence.
  - intros c p s pos dim Hc Hp Hm. cbn in Hc. destruct c as [|[|[|[|c]]]]; try lia; cbn in Hp; injection Hp as <-; cbn in Hm; congruence.
Qed.
Definition h_RA (k : bool * nat) : Prop := In k [(false, 6); (false, 4); (false, 5); (false, 2); (false, 3); (false, 1); (false, 0); (true, 0)].
Definition h_RT (k : bool * nat) : Prop := In k [(false, 6)].
Lemma h_arg : argmachine h_si h_sg h_tbl h_ids h_ce h_texp (fun _ => true) (fun _ => true) (fun _ => true) 40 [1; 0] [2; 3] [2; 3] 0 0 0 h_c2 h_c3 h_c3 h_R2 h_R3 h_R3 h_RA h_RT
  [6] 0 (fun _ => 0) (fun _ => (4, 5)).
Proof.
  destruct h_parts as [I1 I2]. constructor; rewrite ?I1.
  - exact h_nseg2.
  - intros m. apply h_nseg3. now left.
  - intros m. apply h_nseg3. now right.
  - split; [repeat constructor; cbn; intuition discriminate|]. intros k Hk. cbn in *. tauto.
  - intros p i e HR He. assert (Hi : i < 4) by (destruct HR as [E|[E|[E|[E|[E|[]]]]]]; injection E as <- <-; lia). apply (h_labs4 _ p i e); try assumption; try (intros; discriminate).
    intros c q Hc _ pos dim. cbn [n_id N_new]. destruct Hc as [[-> _]|[[-> | ->] _]]; cbn; discriminate.
  - intros t pu Ht. destruct t as [|t]; [|destruct t; discriminate Ht]. injection Ht as <-.
    assert (P : forall e, e < 2 -> pol_dim1 h_si h_sg e).
    { intros e He id s pos dim X Y. destruct e as [|[|e]]; [| |lia]; cbn in X; apply ok_inj in X; subst id; cbn in Y; congruence. }
    assert (Q : forall e, e < 2 -> pol_in h_si h_sg e).
    { intros e He id X. destruct e as [|[|e]]; [| |lia]; cbn in X; apply ok_inj in X; subst id; [exists Stmpexp_n, 0, 1 | exists Stmpexp_n, 1, 1]; (split; [reflexivity|]; split; [now right|]; split; [now left | cbn; lia]). }
    split; [exists 0, 1 | split; [exists 1, 1 | split; apply Q; cbn; lia]]; (split; [reflexivity|]; split; [right; split; [reflexivity|]; split; apply P; cbn; lia | cbn; lia]).
  - intros t Ht. cbn in Ht. replace t with 0 by lia. split; [reflexivity | cbn; lia].
  - intros t t' Ht Ht'. cbn in Ht, Ht'. lia.
  - intros t k _ Hk. rewrite !h_k3. do 3 (destruct k as [|k]; [split; reflexivity|]). lia.
  - intros o e Ho He. destruct Ho as [<-|[]]. cbn in He. destruct He as [-> | ->]; (split; [cbn; tauto|]); eexists; eexists; (split; [reflexivity|]; split; reflexivity).
  - intros t o Ht. destruct t as [|t]; [|destruct t; discriminate Ht]. injection Ht as <-. split; reflexivity.
  - intros j [<-|[<-|[<-|[]]]]; [left; now left | right; exists 0; split; [cbn; lia | now left] | right; exists 0; split; [cbn; lia | now right]].
  - apply h_labs; try (intros; discriminate). intros c p Hc _. cbn. lia.
  - split; [intros j [<-|[<-|[<-|[]]]]; cbn; tauto|]. split; [intros k [<-|[<-|[]]]; cbn; tauto|].
    intros p i HR. split; [cbn; repeat (destruct HR as [E|HR]; [injection E as <- <-; lia|]); destruct HR|]. intros e He k Hk.
    repeat (destruct HR as [E|HR]; [injection E as <- <-; cbn in He; injection He as <-; cbn in Hk; unfold h_RA; cbn; tauto|]). destruct HR.
  - intros k e HR He. repeat (destruct HR as [E|HR]; [first [discriminate E | injection E as <-; cbn in He; injection He as <-]|]); [|destruct HR].
    repeat match goal with |- Forall _ _ => constructor | |- labs _ _ _ _ => constructor end; cbn. intros j Ej. split; [reflexivity | discriminate].
  - split; [intros j [<-|[]]; now left|]. intros p i e [E|[]] He. injection E as <- <-. cbn in He. injection He as <-. split.
    + repeat match goal with |- Forall _ _ => constructor | |- labs _ _ _ _ => constructor end; cbn -[N_new]; try exact Logic.I; intros j Ej; injection Ej as <-; cbn; intros; try discriminate; lia.
    + intros k Hk. cbn in Hk. destruct Hk.
  - intros k Hk. cbn in Hk. replace k with 0 by lia. reflexivity.
  - repeat constructor; cbn; lia.
Qed.
Lemma h_table : table_ok h_si h_sg h_tbl [6] h_cp h_kp.
Proof.
  intros i ch j v Hi Hj Hd. set (rho := table_row h_si h_cp h_kp (map (pub_value h_cp) (st_publics h_sg)) ch i) in *.
  assert (T2 : val (of_k (kconst t_two)) = kconst t_two) by apply of_k_val. assert (T1 : val (of_k (kconst f1)) = kone) by (rewrite of_k_val; apply kconst_1).
  assert (A3 : val (rho (N_new Npublic 0 None false)) = kconst t_two).
  { unfold rho, table_row. cbn [n_ty n_id N_new]. rewrite of_k_val. cbn [nth map h_sg st_publics]. unfold pub_value. cbn [h_cp p_array pb_pol pb_idx cellv nth]. apply val_from. }
  assert (W : val (rho (N_new Ncm 0 None false)) = kone /\ val (rho (N_new Ncm 0 None true)) = kconst t_two \/ val (rho (N_new Ncm 0 None false)) = kconst t_two /\ val (rho (N_new Ncm 0 None true)) = kone).
  { unfold rho, table_row. cbn [n_ty n_id n_prime N_new nPols h_cp Nat.ltb Nat.leb p_array]. destruct i as [|[|i]]; [left; split; [exact T1 | exact T2] | right; split; [exact T2 | exact T1] | cbn in Hi; lia]. }
  clearbody rho. destruct Hj as [<-|[]].
  assert (D : den h_tbl rho false (E_exp 6 false) (e_sub (e_mul (rho (N_new Ncm 0 None false)) (rho (N_new Ncm 0 None true))) (rho (N_new Npublic 0 None false)))).
  { eapply D_exp; [reflexivity | reflexivity | reflexivity | reflexivity|]. eapply D_sub; [reflexivity | reflexivity | |apply (D_public _ _ _ (E_new OPublic (Some 0) None [])); reflexivity].
    eapply D_mul; [reflexivity | reflexivity | |]; [apply (D_cm _ _ _ (E_cm 0 false)) | apply (D_cm _ _ _ (E_cm 0 true))]; reflexivity. }
  rewrite (den_fun _ _ _ _ _ Hd _ D), val_sub, val_mul, A3. destruct W as [[-> ->]|[-> ->]]; ring.
Qed.
Lemma h_first : first_row_column h_si h_sg h_kp 0.
Proof. intros _ i Hi. destruct i as [|[|i]]; [reflexivity | reflexivity | cbn in Hi; lia]. Qed.
Lemma h_chunks : chunks_ok h_si 2.
Proof. eexists. split; [reflexivity|]. cbn [h_si si_nbits_ext]. left. apply Nat.leb_le. vm_compute. reflexivity. Qed.
Lemma h_shaped1 : shaped h_cp. Proof. split; [reflexivity|]. repeat constructor. Qed.
Lemma h_shaped2 : shaped h_kp. Proof. split; [reflexivity|]. repeat constructor. Qed.

Definition h_run : res (mem * tree * tree * tree * transcript * brstate) := let (t, br) := setup_consts ones 3 1 2 2 h_kp br_new in do tc <- t; do m0 <- start_mem h_si h_cp h_kp tc; stages ones 2 h_si h_sg m0 br.
Lemma h_runs : match h_run with Ok _ => true | _ => false end = true. Proof. vm_compute. reflexivity. Qed.
Local Opaque stages start_mem setup_consts.

Theorem toy_arg : exists tc br m0 m t1 t2 t3 tr br' rc p, machine 40 40 h_si h_sg h_tbl h_ids 4 2 h_ce h_pg /\ inputs ones 3 h_si h_cp h_kp tc br_new br /\
  argmachine h_si h_sg h_tbl h_ids h_ce h_texp (fun _ => true) (fun _ => true) (fun _ => true) 40 [1; 0] [2; 3] [2; 3] 0 0 0 h_c2 h_c3 h_c3 h_R2 h_R3 h_R3 h_RA h_RT [6] 0 (fun _ => 0) (fun _ => (4, 5)) /\
  table_ok h_si h_sg h_tbl [6] h_cp h_kp /\ first_row_column h_si h_sg h_kp 0 /\ start_mem h_si h_cp h_kp tc = Ok m0 /\ stages ones 2 h_si h_sg m0 br = Ok (m, t1, t2, t3, tr, br') /\
  chunks_ok h_si 2 /\ steps_ok (si_nbits_ext h_si) [1] /\
  tree_root tc = Ok rc /\ stark_gen ones 2 h_si h_sg h_pg [2; 1] 3 h_cp h_kp tc br = Ok p /\ sp_publics p = [e_from t_two] /\ stark_verify ones h_si h_pg [2; 1] 3 rc p = Ok true.
Proof.
  assert (S1 : steps_ok (si_nbits_ext h_si) [1]).
  { cbn [steps_ok h_si si_nbits_ext]. split; [lia|]. split; [lia|]. split; [|exact Logic.I]. apply Nat.leb_le. vm_compute. reflexivity. }
  pose proof h_runs as HR. unfold h_run in HR. destruct (setup_consts ones 3 1 2 2 h_kp br_new) as [[tc| | |] br] eqn:Es; try discriminate HR. rewrite bindE in HR.
  destruct (start_mem h_si h_cp h_kp tc) as [m0| | |] eqn:Em; try discriminate HR. rewrite bindE in HR.
  destruct (stages ones 2 h_si h_sg m0 br) as [[[[[[m t1] t2] t3] tr] br']| | |] eqn:Eg; try discriminate HR. clear HR.
  assert (HI : inputs ones 3 h_si h_cp h_kp tc br_new br).
  { constructor; [| | exact new_nice | exact Es].
    - split; [exact h_shaped1|]. split; [cbn; lia|]. split; reflexivity.
    - split; [exact h_shaped2|]. split; [cbn; lia | reflexivity]. }
  destruct (arg_complete ones ones_len 40 40 2 3 h_si h_sg h_tbl h_ids 4 2 h_ce h_pg h_cp h_kp tc br_new br _ _ _ _ _ _ _ _ _ _ _ _ _ _ _ _ _ _ _ _ _ _ _ ltac:(discriminate) ltac:(discriminate) h_machine HI h_arg h_table h_first
    m0 m t1 t2 t3 tr br' [1] 3 Em Eg h_chunks S1 ltac:(lia)) as [rc [m4 [t4 [root4 [xi [tr4 [R1 [R4 R5]]]]]]]].
  assert (A : all1 tr).
  { destruct (arg_stages ones ones_len 40 40 2 3 h_si h_sg h_tbl h_ids 4 2 h_ce h_pg h_cp h_kp tc br_new br _ _ _ _ _ _ _ _ _ _ _ _ _ _ _ _ _ _ _ _ _ _ _ ltac:(discriminate) ltac:(discriminate) h_machine HI h_arg h_table h_first
      m0 m t1 t2 t3 tr br' Em Eg) as [X5 [X6 [X4 _]]].
    assert (Bp : Forall vbase (m_sec m Spublics)).
    { rewrite X4. apply Forall_forall. intros x Hx. apply in_map_iff in Hx. destruct Hx as [p [<- _]]. eexists. reflexivity. }
    destruct (stages_mem ones ones_len 40 40 2 3 h_si h_sg h_tbl h_ids 4 2 h_ce h_pg h_cp h_kp tc br_new br m0 m t1 t2 t3 tr br' ltac:(discriminate) ltac:(discriminate) h_machine HI Em Eg X5 X6)
      as [r1 [r2 [r3 [rc' [_ [_ [_ [_ [_ [_ [F _]]]]]]]]]]]; [eapply Forall_impl; [|exact Bp]; exact vbase_wf | intros _; eapply Forall_impl; [|exact Bp]; exact vbase_d3|].
    exact (rounds1 _ _ _ _ _ _ F). }
  pose proof (t_xi _ _ _ _ _ _ _ _ _ _ _ A R4). subst xi. destruct (R5 (fun r _ => t_out r)) as [p [P1 [P2 P3]]].
  exists tc, br, m0, m, t1, t2, t3, tr, br', rc, p. split; [exact h_machine|]. split; [exact HI|]. split; [exact h_arg|]. split; [exact h_table|]. split; [exact h_first|]. split; [exact Em|]. split; [exact Eg|].
  split; [exact h_chunks|]. split; [exact S1|]. split; [exact R1|]. split; [exact P1|]. split; [exact P2 | exact P3].
Qed.
