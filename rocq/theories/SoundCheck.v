(* What the accepted check at the challenge point says about the claimed evaluations, whatever they are. *)
From Coq Require Import Ring Field Arith.
From Verif Require Import Base GlModel FrField F3gModel Cubic F3gProof ListAux PolyModel Roots PolyProof FftProof FftTop FriMath CodegenModel CodegenProof
  InterpModel InterpProof VerifierModel VerifierProof ImModel ImProof HashModel FftpModel FftpProof FriModel FriProof ProverModel ProverProof ParModel ParProof
  StarkMath StarkModel StarkGen StarkSrc StarkPoly StarkRow StarkQuot StarkEval StarkStep4 StarkFri StarkStep5 StarkCheck.
Open Scope nat_scope.
Open Scope list_scope.
Open Scope res_scope.
Add Field K_field_sck : K_field.

(* the claimed evaluation of a key *)
Fixpoint key_val (evs : list evkey) (evals : list F3G) (k : evkey) : F3G :=
  match evs, evals with
  | e :: es, v :: vs => if evkey_eqb e k then v else key_val es vs k
  | _, _ => e_ZERO
  end.
(* what a reference stands for at the challenge point, by the claims of the proof *)
Definition claimed (evs : list evkey) (evals pub ch : list F3G) (r : node) : F3G :=
  match n_ty r with
  | Ncm => key_val evs evals (true, n_prime r, n_id r)
  | Nconst => key_val evs evals (false, n_prime r, n_id r)
  | Neval => nth (n_id r) evals e_ZERO
  | Nnumber => match number_ref (n_value r) with Ok v => v | _ => e_ZERO end
  | Npublic => nth (n_id r) pub e_ZERO
  | Nchallenge => nth (n_id r) ch e_ZERO
  | Nx => nth 7 ch e_ZERO
  | _ => e_ZERO
  end.
Lemma key_val_nth evs : forall evals i k, NoDup evs -> nth_error evs i = Some k -> key_val evs evals k = nth i evals e_ZERO.
Proof.
  induction evs as [|e evs IH]; intros evals i k Hd H; [destruct i; discriminate H|]. inversion Hd as [|? ? Ha Hd']; subst. destruct i as [|i]; cbn [nth_error] in H.
  - injection H as ->. cbn [key_val]. destruct evals as [|v vs]; [reflexivity|]. destruct (evkey_eqb_spec k k); [reflexivity | contradiction].
  - cbn [key_val]. destruct evals as [|v vs]; [now destruct i|]. destruct (evkey_eqb_spec e k) as [->|]; [apply nth_error_In in H; contradiction|]. exact (IH vs i k Hd' H).
Qed.
Lemma key_val_wf evs : forall evals k, Forall F3gProof.wf evals -> F3gProof.wf (key_val evs evals k).
Proof.
  induction evs as [|e evs IH]; intros evals k H; [apply wf_ZERO|]. cbn [key_val]. destruct evals as [|v vs]; [apply wf_ZERO|]. inversion H; subst.
  destruct (evkey_eqb e k); [assumption | now apply IH].
Qed.

(* ---------- no key twice ---------- *)
Definition ev_nd (e : evst) : Prop := NoDup (ev_map e) /\ forall k, In k (ev_map e) -> ev_get e k <> None.
Lemma nd_push e k : ev_nd e -> ~ In k (ev_map e) -> ev_nd (ev_push e k).
Proof.
  intros [A B] H. split.
  - cbn [ev_push ev_map]. apply (Permutation.Permutation_NoDup (Permutation.Permutation_app_comm [k] (ev_map e))). constructor; assumption.
  - intros k' Hk. unfold ev_get, ev_push. cbn [ev_idx assoc]. destruct (evkey_eqb_spec k k') as [|N]; [discriminate|]. apply B. cbn [ev_push ev_map] in Hk.
    apply in_app_or in Hk. destruct Hk as [Hk|[Hk|[]]]; [exact Hk | contradiction].
Qed.
Lemma nd_ref e k : ev_nd e -> ev_nd (snd (ev_ref e k)).
Proof. intros H. unfold ev_ref. destruct (ev_get e k) eqn:E; [exact H|]. apply nd_push; [exact H|]. intros C. now apply (proj2 H) in C. Qed.
Lemma nd_fix im f r r' f' : ev_nd (f_ev f) -> fix_ref im f r = Ok (r', f') -> ev_nd (f_ev f').
Proof.
  intros H E. unfold fix_ref in E.
  assert (T : forall k, ev_nd (f_ev (snd (to_eval f r k)))).
  { intros k. unfold to_eval. pose proof (nd_ref (f_ev f) k H) as N. destruct (ev_ref (f_ev f) k) as [i e]. exact N. }
  destruct (n_ty r); try discriminate E; try (apply ok_inj in E; apply (f_equal snd) in E; cbn [snd] in E; subst f'; exact H).
  - destruct (assoc Nat.eqb im (n_id r)) as [c|].
    + apply ok_inj in E. apply (f_equal snd) in E. cbn [snd] in E. rewrite <- E. apply T.
    + unfold exp_tmp in E. destruct (assoc pkey_eqb (f_exp f) (n_prime r, n_id r)); apply ok_inj in E; apply (f_equal snd) in E; cbn [snd] in E; subst f'; exact H.
  - apply ok_inj in E. apply (f_equal snd) in E. cbn [snd] in E. rewrite <- E. apply T.
  - apply ok_inj in E. apply (f_equal snd) in E. cbn [snd] in E. rewrite <- E. apply T.
Qed.
Lemma nd_refs im l : forall f l' f', ev_nd (f_ev f) -> fix_refs im f l = Ok (l', f') -> ev_nd (f_ev f').
Proof.
  induction l as [|r l IH]; intros f l' f' H E; cbn [fix_refs] in E; [injection E as _ <-; exact H|].
  apply bind_ok in E. destruct E as [[a fa] [Ea E]]. cbn [fst snd] in E. apply bind_ok in E. destruct E as [[b fb] [Eb E]]. cbn [fst snd] in E. injection E as _ <-.
  exact (IH fa _ _ (nd_fix _ _ _ _ _ H Ea) Eb).
Qed.
Lemma nd_code im l : forall f l' f', ev_nd (f_ev f) -> fix_code im f l = Ok (l', f') -> ev_nd (f_ev f').
Proof.
  induction l as [|c l IH]; intros f l' f' H E; cbn [fix_code] in E; [injection E as _ <-; exact H|].
  apply bind_ok in E. destruct E as [[a fa] [Ea E]]. cbn [fst snd] in E. apply bind_ok in E. destruct E as [[d fd] [Ed E]]. cbn [fst snd] in E. apply bind_ok in E. destruct E as [[b fb] [Eb E]].
  cbn [fst snd] in E. injection E as _ <-. exact (IH fd _ _ (nd_fix _ _ _ _ _ (nd_refs _ _ _ _ _ H Ea) Ed) Eb).
Qed.
Lemma nd_pushes qs : forall e, ev_nd e -> NoDup qs -> (forall q, In q qs -> ~ In (true, false, q) (ev_map e)) -> ev_nd (fold_left (fun e q => ev_push e (true, false, q)) qs e).
Proof.
  induction qs as [|q qs IH]; intros e H Hd Hq; cbn [fold_left]; [exact H|]. inversion Hd as [|? ? Ha Hd']; subst. apply IH; [|exact Hd'|].
  - apply nd_push; [exact H|]. apply Hq. now left.
  - intros q' I0 C. cbn [ev_push ev_map] in C. apply in_app_or in C. destruct C as [C|[C|[]]]; [apply (Hq q'); [now right | exact C]|]. injection C as ->. contradiction.
Qed.

Section Chk.
  Variables (si : sinfo) (tbl : list expr) (c : expr) (im : list (nat * nat)) (kcm qdeg : nat) (pub ch : list F3G).
  Local Notation qs := (seq kcm qdeg).
  Local Notation nb := (si_nbits si).
  Hypothesis Him : Forall (fun p => fst p < length tbl /\ snd p < kcm) im.
  Hypothesis Hlabs : forall p, Forall (labs (node_ok si (length tbl) kcm (length pub)) false p) (tbl ++ [c]).
  Hypothesis Hwf : Forall wf_e (tbl ++ [c]).
  Variables (fuel : nat) (code : list instr) (ev : evst).
  Hypothesis Hcode : verifier_code fuel (tbl ++ [c]) im (length tbl) qs = Ok (code, ev).

  Lemma verifier_nodup : NoDup (ev_map ev).
  Proof.
    pose proof Hcode as H. unfold verifier_code in H.
    destruct (pil_code_gen fuel (tbl ++ [c]) None true (mkCtx 0 [] (im_keys im)) (length tbl) false) as [cx| | |] eqn:Eg; try discriminate H. cbn [bind] in H.
    destruct (fix_code im (mkF [] (x_tmp cx) (mkEV [] [])) (linear_code cx)) as [[code' f]| | |] eqn:Ef; try discriminate H. cbn [bind fst snd] in H. apply ok_inj in H. injection H as <- Eev.
    pose (P' := fun r => n_ty r = Ntmp \/ node_ok si (length tbl) kcm (length pub) r).
    destruct (gen_src P' (fun r H => or_introl H) (tbl ++ [c]) (fun _ => True)) with (fuel := fuel) (m := true) (c := mkCtx 0 [] (im_keys im)) (i := length tbl) (p := false) (c' := cx) as [ext [X1 X2]].
    { intros q j y _ Ey. split; [|auto]. apply (labs_mono (node_ok si (length tbl) kcm (length pub))); [intros r H; now right|]. apply (proj1 (Forall_forall _ _) (Hlabs q)). eapply nth_error_In, Ey. }
    { exact Logic.I. }
    { exact Eg. }
    change (linear_code (mkCtx 0 [] (im_keys im))) with (@nil instr) in X1. cbn [app] in X1.
    destruct (gen_grows _ _ _ _ _ _ _ Eg) as [[_ [_ [ext' [G1 G2]]]] _]. change (linear_code (mkCtx 0 [] (im_keys im))) with (@nil instr) in G1. cbn [app] in G1. subst ext'.
    assert (D : Forall (fun ci => n_ty (i_dest ci) = Ntmp \/ n_ty (i_dest ci) = Nexp) (linear_code cx)).
    { eapply Forall_impl; [|exact G2]. intros a [_ [[Hd _]|[i [p [Hd _]]]]]; [now left|right; exact (f_equal (fun k => fst (fst k)) Hd)]. }
    rewrite <- X1 in X2.
    destruct (fixv_src P' (key_ok kcm (si_nconst si)) im (x_tmp cx) true (linear_code cx)) with (f := mkF [] (x_tmp cx) (mkEV [] [])) (code' := code') (f' := f) as [F1 [F2 [F3 F4]]].
    - intros r [C|Hr] Ht; [congruence|]. unfold node_ok in Hr. rewrite Ht in Hr. exact Hr.
    - intros r [C|Hr] Ht; [congruence|]. unfold node_ok in Hr. rewrite Ht in Hr. exact Hr.
    - intros i k p E. exact (proj2 (im_get tbl im kcm Him i k E)).
    - exact (f_start_inv (x_tmp cx)).
    - constructor.
    - exact X2.
    - exact D.
    - exact Ef.
    - rewrite <- Eev. apply nd_pushes.
      + refine (nd_code _ _ _ _ _ _ Ef). split; [constructor | intros k []].
      + apply seq_NoDup.
      + intros q Hq C. apply in_seq in Hq. apply (proj1 (Forall_forall _ _) F3) in C. unfold key_ok in C. cbn [fst snd] in C. lia.
  Qed.

  Variables (evals : list F3G) (x : vctx) (xi : F3G).
  Hypothesis Hxe : v_evals x = evals.
  Hypothesis Hxp : v_publics x = pub.
  Hypothesis Hxc : v_challenge x = ch.
  Hypothesis Hx4 : length ch = 8.
  Hypothesis Hx7 : nth_error ch 7 = Some xi.
  Hypothesis We : Forall F3gProof.wf evals.
  Hypothesis Wp : Forall F3gProof.wf pub.
  Hypothesis Wc : Forall F3gProof.wf ch.
  Local Notation rho := (claimed (ev_map ev) evals pub ch).

  (* missing evaluations count as zero; the check fails when it reads one *)
  Definition pad : vctx := mkV (v_tree1 x) (v_tree2 x) (v_tree3 x) (v_tree4 x) (v_consts x) (v_evals x ++ repeat e_ZERO (length (ev_map ev))) (v_publics x) (v_challenge x)
    (v_xdiv x) (v_xdivw x) (v_Z x) (v_Zp x).
  Lemma vget_app {A} (l l' : list A) i a : vget l i = Ok a -> vget (l ++ l') i = Ok a.
  Proof. intros H. apply vget_inv in H. apply vget_some. rewrite nth_error_app1; [exact H|]. apply nth_error_Some. congruence. Qed.
  Lemma pad_get z zp t r v : v_get (mkV (v_tree1 x) (v_tree2 x) (v_tree3 x) (v_tree4 x) (v_consts x) (v_evals x) (v_publics x) (v_challenge x) (v_xdiv x) (v_xdivw x) z zp) t r = Ok v ->
    v_get (mkV (v_tree1 pad) (v_tree2 pad) (v_tree3 pad) (v_tree4 pad) (v_consts pad) (v_evals pad) (v_publics pad) (v_challenge pad) (v_xdiv pad) (v_xdivw pad) z zp) t r = Ok v.
  Proof. unfold v_get. destruct (n_ty r); try (intros H; exact H). cbn [v_evals pad]. apply vget_app. Qed.
  Lemma mapM_mono {A B} (f g : A -> res B) l : (forall a b, f a = Ok b -> g a = Ok b) -> forall r, mapM f l = Ok r -> mapM g l = Ok r.
  Proof.
    intros H. induction l as [|a l IH]; intros r E; cbn [mapM] in *; [exact E|]. apply bind_ok in E. destruct E as [b [Eb E]]. apply bind_ok in E. destruct E as [s [Es E]].
    rewrite (H _ _ Eb). cbn [bind]. rewrite (IH _ Es). exact E.
  Qed.
  Lemma pad_run y y' : (forall t r v, v_get y t r = Ok v -> v_get y' t r = Ok v) -> forall cd t t', v_run y t cd = Ok t' -> v_run y' t cd = Ok t'.
  Proof.
    intros H. induction cd as [|i cd IH]; intros t t' E; cbn [v_run] in *; [exact E|]. apply bind_ok in E. destruct E as [s [Es E]]. apply bind_ok in E. destruct E as [v [Ev E]].
    rewrite (mapM_mono _ _ _ (H t) _ Es). cbn [bind]. rewrite Ev. cbn [bind]. destruct (n_ty (i_dest i)); try discriminate E. exact (IH _ _ E).
  Qed.
  Lemma pad_sum l l' e : forall cs a b d r, q_sum l e cs a b d = Ok r -> q_sum (l ++ l') e cs a b d = Ok r.
  Proof.
    induction cs as [|k cs IH]; intros a b d r E; cbn [q_sum] in *; [exact E|]. apply bind_ok in E. destruct E as [i [Ei E]]. apply bind_ok in E. destruct E as [v [Ev E]].
    rewrite Ei. cbn [bind]. rewrite (vget_app _ _ _ _ Ev). cbn [bind]. exact (IH _ _ _ _ E).
  Qed.
  Lemma pad_check : check_constraint x code ev qs nb = Ok true -> check_constraint pad code ev qs nb = Ok true.
  Proof.
    unfold check_constraint. intros E. apply bind_ok in E. destruct E as [z [Ez E]]. change (v_challenge pad) with (v_challenge x). rewrite Ez. cbn [bind] in *. cbv zeta in *.
    apply bind_ok in E. destruct E as [r [Er E]]. apply bind_ok in E. destruct E as [s [Es E]].
    assert (Er' : execute_code (mkV (v_tree1 pad) (v_tree2 pad) (v_tree3 pad) (v_tree4 pad) (v_consts pad) (v_evals pad) (v_publics pad) (v_challenge pad) (v_xdiv pad) (v_xdivw pad) (e_sub (e_exp z (2 ^ Z.of_nat nb)) e_ONE) (v_Zp pad)) code = Ok r).
    { unfold execute_code in *. destruct (rev code) as [|ci rc]; [discriminate Er|]. apply bind_ok in Er. destruct Er as [t [Et Eg]]. change (v_Zp pad) with (v_Zp x).
      rewrite (pad_run _ _ (pad_get _ _) _ _ _ Et). cbn [bind]. exact (pad_get _ _ _ _ _ Eg). }
    etransitivity; [apply (f_equal (fun y => bind y _)); exact Er'|]. cbn [bind]. cbn [v_evals pad]. rewrite (pad_sum _ _ _ _ _ _ _ _ Es). exact E.
  Qed.
  Lemma nth_pad i : nth i (v_evals pad) e_ZERO = nth i evals e_ZERO.
  Proof.
    cbn [v_evals pad]. rewrite Hxe. destruct (Nat.lt_ge_cases i (length evals)) as [L|L]; [now rewrite app_nth1|]. rewrite app_nth2, (nth_overflow evals) by exact L.
    generalize (i - length evals) as j. generalize (length (ev_map ev)) as n. induction n as [|n IH]; intros [|j]; try reflexivity. apply IH.
  Qed.
  Lemma nth_all_wf (l : list F3G) i : Forall F3gProof.wf l -> F3gProof.wf (nth i l e_ZERO).
  Proof. intros H. destruct (Nat.lt_ge_cases i (length l)) as [L|L]; [apply (proj1 (Forall_forall _ _) H), nth_In, L | rewrite nth_overflow by exact L; apply wf_ZERO]. Qed.
  Lemma rho_wf r : F3gProof.wf (rho r).
  Proof.
    unfold claimed. destruct (n_ty r); try apply wf_ZERO; try (apply nth_all_wf; assumption); try (apply key_val_wf; exact We).
    destruct (number_ref (n_value r)) as [v| | |] eqn:E; try apply wf_ZERO. exact (num_wf _ _ E).
  Qed.
  Lemma pad_answers : answers pad rho code ev.
  Proof.
    destruct (verifier_refs si tbl c im kcm qdeg pub Him Hlabs fuel code ev Hcode) as [V1 [V2 V3]]. constructor.
    - unfold claimed. cbn [n_ty N_new n_value]. rewrite num0. reflexivity.
    - intros i k Hk. assert (Li : i < length (v_evals pad)) by (cbn [v_evals pad]; rewrite app_length, repeat_length; assert (i < length (ev_map ev)) by (apply nth_error_Some; congruence); lia).
      rewrite (nth_error_nth' _ e_ZERO Li). f_equal. rewrite nth_pad. rewrite <- (key_val_nth _ evals i k verifier_nodup Hk). unfold claimed, ev_node. destruct k as [[[|] p] j]; reflexivity.
    - intros j v Hj. unfold claimed. cbn [n_ty n_id N_new]. rewrite <- nth_pad. exact (nth_error_nth _ _ _ Hj).
    - intros ci r Hci Hr. destruct (V3 ci r Hci Hr) as [A|[[A B]|[A B]]].
      + rewrite A. exact Logic.I.
      + rewrite A. cbn [v_evals pad]. rewrite app_length, repeat_length. lia.
      + unfold Pv, node_ok in A. unfold v_get, claimed. destruct (n_ty r) eqn:Et; try contradiction.
        * destruct A as [v ->]. reflexivity.
        * cbn [v_publics pad]. rewrite Hxp. apply vget_nth. exact A.
        * destruct A as [A _]. cbn [v_challenge pad]. rewrite Hxc. apply vget_nth. lia.
        * cbn [v_challenge pad]. rewrite Hxc. apply vget_nth. lia.
  Qed.
  Theorem check_sound : check_constraint x code ev qs nb = Ok true ->
    exists v, den (with_im im (tbl ++ [c])) rho false c v /\
      let X := kpow (val xi) (2 ^ nb) in
      val v = kmul (kpoly X (map (fun j => val (key_val (ev_map ev) evals (true, false, j))) qs)) (ksub X kone).
  Proof.
    intros E. apply pad_check in E.
    assert (Him1 : Forall (fun p => fst p < length (tbl ++ [c])) im) by (eapply Forall_impl; [|exact Him]; intros p [A _]; rewrite app_length; lia).
    assert (Hp7 : nth_error (v_challenge pad) 7 = Some xi) by (cbn [v_challenge pad]; rewrite Hxc; exact Hx7).
    assert (Wx : F3gProof.wf xi) by (eapply (proj1 (Forall_forall _ _) Wc), nth_error_In, Hx7).
    destruct (check_ok _ _ _ _ _ _ _ Hcode Hwf Him1 (c_not_im tbl im kcm Him) pad rho xi nb pad_answers rho_wf Hp7 Wx) as [e0 [v [b [B1 [B2 [B3 B4]]]]]].
    rewrite nth_error_app2, Nat.sub_diag in B1 by lia. injection B1 as <-. rewrite B3 in E. apply ok_inj in E. exists v. split; [exact B2|]. exact (proj1 B4 E).
  Qed.
End Chk.
