(* A trace of two rows and two kept expressions, one of them read in the next row, for the example of C79; no part of
   the code. *)
From Coq Require Import Arith.
From Verif Require Import Base GlModel FrField F3gModel Cubic F3gProof ListAux PolyModel CodegenModel CodegenProof InterpModel InterpProof BnProof FftpBase
  VerifierModel VerifierProof HashModel FriModel FftpModel ProverModel ProverProof ParModel ParProof StarkModel StarkGen StarkRow StarkSrc StageModel StarkExtend StarkStages NStep NGen NTop.
Open Scope nat_scope.
Open Scope list_scope.
Open Scope res_scope.

Definition ny_si : sinfo := mkSI [(Scm1_n, 0, 1); (Stmpexp_n, 0, 1); (Stmpexp_n, 1, 1)] [0] [] [1; 2]
  (fun s => match s with Scm1_n => 1 | Stmpexp_n => 2 | _ => 0 end) 0 3 1 2.
Definition ny_tbl : list expr := [E_mul (E_cm 0 false) (E_cm 0 false); E_sub (E_exp 0 true) (E_exp 0 false)].
Definition ny_texp : list (nat * nat) := [(0, 0); (1, 1)].
Definition ny_c : context := match gens ny_tbl 10 [1; 0] (mkCtx 0 [] []) with Ok c => c | _ => mkCtx 0 [] [] end.
Definition ny_seg : segment := match fix_prover_code ny_si [] ny_texp true (linear_code ny_c) (x_tmp ny_c) with Ok s => s | _ => mkSeg [] 0 end.
Definition ny_blk : list iop := match compile_code ny_si (sg_first ny_seg) true false with Ok b => b | _ => [] end.
Definition ny_R (k : bool * nat) : Prop := In k [(false, 1); (true, 0); (false, 0)].
Definition ny_m : mem := mkM (fun s => match s with Scm1_n => [e_from (fof 2%Z); e_from (fof 5%Z)] | Stmpexp_n => repeat e_ZERO 4 | _ => [] end) [] [] (build_Zh_Inv 1 1 0).

Lemma ny_nseg : nseg ny_si Step2prev [] ny_texp (fun _ => false) ny_tbl 10 [1; 0] 0 ny_c ny_seg ny_R ny_m.
Proof.
  assert (K : forall s c, kwrites ny_si [] ny_texp ny_c s c = match s with Stmpexp_n => c <? 2 | _ => false end).
  { intros s c. unfold kwrites. replace (exp_dests (linear_code ny_c)) with [(true, 0); (false, 0); (false, 1)] by (vm_compute; reflexivity).
    unfold covers. destruct s; try reflexivity. destruct c as [|[|c]]; reflexivity. }
  constructor.
  - reflexivity.
  - vm_compute. reflexivity.
  - vm_compute. reflexivity.
  - repeat constructor.
  - constructor; [now left|]. constructor; [right; right; now left | constructor].
  - assert (C : forall p, lsrc ny_si Step2prev ny_m (kwrites ny_si [] ny_texp ny_c) (N_new Ncm 0 None p)).
    { intros p. right. right. unfold lread. cbn [n_ty n_id N_new]. exists Scm1_n, 0, 1. split; [reflexivity|]. split; [|split; [now left|]].
      - split; [now left|]. split; [now left|]. split; [reflexivity|]. cbn. lia.
      - intros c _. rewrite K. reflexivity. }
    assert (X : forall i p, lsrc ny_si Step2prev ny_m (kwrites ny_si [] ny_texp ny_c) (N_new Nexp i None p)) by (intros i p; right; left; reflexivity).
    intros p i e [E|[E|[E|[]]]] He; injection E as <- <-; cbn in He; injection He as <-; split;
      try (repeat match goal with |- Forall _ _ => constructor | |- labs _ _ _ _ => constructor end; cbn; try exact Logic.I; intros j Ej; injection Ej as <-; first [apply C | apply X]);
      intros k Hk; cbn in Hk; unfold ny_R; cbn; tauto.
  - intros p i ty k HR Hk. destruct HR as [E|[E|[E|[]]]]; injection E as <- <-; cbn in Hk; injection Hk as <- <-;
      (eexists; eexists; eexists; split; [reflexivity|]; split; [split; [now left|]; split; [cbn; tauto|]; split; [reflexivity|]; cbn; lia | cbn; tauto]).
  - intros p q i j s c H1 H2 E1 E2. destruct s; cbn in E1, E2;
      destruct H1 as [E|[E|[E|[]]]]; injection E as <- <-; destruct H2 as [E|[E|[E|[]]]]; injection E as <- <-; try reflexivity; try discriminate E1;
      destruct c as [|[|c]]; first [discriminate E1 | discriminate E2].
  - apply Forall_forall. intros c Hc _. apply Forall_forall. intros r Hr.
    assert (A : forallb (fun c => forallb (fun r => negb (wnode ny_si ny_m (fun _ => false) r)) (i_src c)) (sg_first ny_seg) = true) by (vm_compute; reflexivity).
    rewrite forallb_forall in A. specialize (A c Hc). rewrite forallb_forall in A. specialize (A r Hr). apply negb_true_iff in A. exact A.
  - intros i e HR He. destruct HR as [E|[E|[E|[]]]]; [discriminate E| |discriminate E]. injection E as <-. cbn in He. injection He as <-.
    repeat match goal with |- Forall _ _ => constructor | |- labs _ _ _ _ => constructor end; cbn; try exact Logic.I; intros j Ej; discriminate.
  - intros p i s pos e HR Hk. destruct HR as [E|[E|[E|[]]]]; injection E as <- <-; cbn in Hk; discriminate Hk.
Qed.
Lemma ny_nmem : nmem ny_si Step2prev ny_m.
Proof.
  assert (B : forall s, Forall vbase (m_sec ny_m s)) by (intros s; destruct s; cbn; repeat constructor; eexists; reflexivity).
  constructor; [|intros s _; apply B | constructor | constructor]. split; [|split; [discriminate | reflexivity]].
  intros s Hs. split; [|eapply Forall_impl; [|apply B]; exact vbase_d3]. cbn in Hs. repeat (destruct Hs as [<-|Hs]; [reflexivity|]). destruct Hs.
Qed.
Lemma ny_compiles : compile_code ny_si (sg_first ny_seg) true false = Ok ny_blk. Proof. vm_compute. reflexivity. Qed.
(* the two columns: the squares 4 and 25 of the trace, and the difference of the square in the next row and the square *)
Lemma ny_values : rmap (fun p => m_sec p Stmpexp_n) (calculate_exps_parallel ny_si Step2prev ny_m ny_seg 3) =
  Ok [e_from (fof 4%Z); e_from (fof 21%Z); e_from (fof 25%Z); e_from (fof (GLP - 21)%Z)].
Proof. vm_compute. reflexivity. Qed.
