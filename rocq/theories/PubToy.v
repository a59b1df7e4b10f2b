(* Publics computed from an expression over a trace of two rows, for the examples of C81; no part of the code. *)
From Coq Require Import Arith.
From Verif Require Import Base GlModel FrField F3gModel Cubic F3gProof ListAux PolyModel CodegenModel CodegenProof InterpModel InterpProof BnProof FftpBase
  VerifierModel VerifierProof HashModel FriModel FftpModel ProverModel ProverProof ParModel ParProof StarkModel StarkGen StarkRow StarkSrc StarkTop StageModel StarkExtend StarkStages NStep NGen NTop PubModel PubProof.
Open Scope nat_scope.
Open Scope list_scope.
Open Scope res_scope.

Definition pb_si : sinfo := mkSI [(Scm1_n, 0, 1); (Scm1_n, 1, 1)] [0; 1] [] [] (fun s => match s with Scm1_n => 2 | _ => 0 end) 1 3 1 2.
Definition pb_tbl : list expr := [E_cm 0 false; E_add (E_exp 0 true) (E_mul (E_cm 1 false) (E_const 0 false))].
Definition pb_R (k : bool * nat) : Prop := In k [(false, 1); (true, 0)].
Definition pb_im : public := mkPub PimP 1 1.
Definition pb_cm : public := mkPub PcmP 1 0.
Definition pb_segs (ps : list public) : list segment := match public_codes 10 pb_tbl ps with Ok l => l | _ => [] end.
Definition pb_sg (ps : list public) : stageprog :=
  mkSG ps (match map_publics pb_si [] [] (pb_segs ps) with Ok l => l | _ => [] end) (mkSeg [] 0) (mkSeg [] 0) (mkSeg [] 0) [] [] [] (fun _ => Panic) 2.
Definition pb_f (z : Z) : F3G := e_from (fof z).
Definition pb_m : mem := mkM (fun s => match s with Scm1_n => [pb_f 3; pb_f 5; pb_f 7; pb_f 11] | Sconst_n => [pb_f 1; pb_f 2] | _ => [] end) [] [] (build_Zh_Inv 1 1 0).

Lemma pb_codes : public_codes 10 pb_tbl [pb_im; pb_cm] = Ok (pb_segs [pb_im; pb_cm]) /\ map_publics pb_si [] [] (pb_segs [pb_im; pb_cm]) = Ok (st_pubcode (pb_sg [pb_im; pb_cm])).
Proof. split; vm_compute; reflexivity. Qed.
Lemma pb_codes_bad : public_codes 10 pb_tbl [pb_cm; pb_im] = Ok (pb_segs [pb_cm; pb_im]) /\ map_publics pb_si [] [] (pb_segs [pb_cm; pb_im]) = Ok (st_pubcode (pb_sg [pb_cm; pb_im])).
Proof. split; vm_compute; reflexivity. Qed.
Lemma pb_refs : forall p i e, pb_R (p, i) -> nth_error pb_tbl i = Some e -> labs (pub_node pb_si) false p e /\ forall k, In k (exp_refs p e) -> pb_R k.
Proof.
  assert (C : forall p i, i < 2 -> pub_node pb_si (N_new Ncm i None p)).
  { intros p i Hi. unfold pub_node. cbn [n_ty n_id N_new]. destruct i as [|[|i]]; [exists 0 | exists 1 | lia]; split; try reflexivity; cbn; lia. }
  assert (D : forall p, pub_node pb_si (N_new Nconst 0 None p)) by (intros p; unfold pub_node; cbn; lia).
  intros p i e [E|[E|[]]] He; injection E as <- <-; cbn in He; injection He as <-; split;
    try (repeat match goal with |- Forall _ _ => constructor | |- labs _ _ _ _ => constructor end; cbn [e_op E_add E_mul E_new E_cm E_const E_exp lab]; try exact Logic.I;
         intros j Ej; cbn in Ej; injection Ej as <-; first [apply C; lia | apply D | exact Logic.I]);
    intros k Hk; cbn in Hk; unfold pb_R; cbn; tauto.
Qed.
Lemma pb_good : Forall wf_e pb_tbl /\ (forall p, In p (si_map pb_si) -> fst (fst p) <> Stmp) /\ tables pb_si pb_m /\ pb_R (false, pb_pol pb_im).
Proof.
  split; [repeat constructor|]. split; [intros p [<-|[<-|[]]]; discriminate|]. split; [split; reflexivity | now left].
Qed.
(* the first public is 3 + 11 * 2, the second the cell 5 *)
Lemma pb_values : rmap (fun m => m_sec m Spublics) (set_publics pb_si (pb_sg [pb_im; pb_cm]) pb_m) = Ok [pb_f 25; pb_f 5].
Proof. vm_compute. reflexivity. Qed.
Lemma pb_panics : set_publics pb_si (pb_sg [pb_cm; pb_im]) pb_m = Panic.
Proof. vm_compute. reflexivity. Qed.
