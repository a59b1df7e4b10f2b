(* The layout of a PIL without lookups, permutations and connections. *)
From Coq Require Import String.
From Verif Require Import Base GlModel FrField F3gModel ListAux CodegenModel InterpModel VerifierModel ParModel StarkModel StageModel MapModel MapProof InfoModel InfoLayout.
Open Scope nat_scope.
Open Scope list_scope.
Open Scope res_scope.

Lemma mapM_nth {A B} (f : A -> res B) l : forall r i x, mapM f l = Ok r -> nth_error l i = Some x -> exists y, f x = Ok y /\ nth_error r i = Some y.
Proof.
  induction l as [|a l IH]; intros r [|i] x H E; try discriminate E; cbn [mapM] in H; apply bind_ok in H; destruct H as [b [Hb H]]; apply bind_ok in H; destruct H as [bs [Hbs H]]; injection H as <-.
  - cbn in E. injection E as ->. exists b. split; [exact Hb | reflexivity].
  - exact (IH bs i x Hbs E).
Qed.

Section Place.
  Variables (ncm nim q qd nconst nb nbe : nat) (k : cols) (si : sinfo).
  Hypothesis Hq : q = 1 \/ q = 3.
  Hypothesis Hn : co_n k = map (fun i => 2 * i) (seq 0 (ncm + nim + qd)).
  Hypothesis H2 : co_2ns k = map (fun i => 2 * i + 1) (seq 0 (ncm + nim + qd)).
  Hypothesis Hp : co_pols k = pairs "cm1_n" "cm1_2ns" 1 ncm ++ pairs "cm3_n" "cm3_2ns" 1 nim ++ pairs "cm4_n" "cm4_2ns" q qd ++ [mkPT "q_2ns" 0 q; mkPT "f_2ns" 0 3].
  Hypothesis Hl : layout_of k q nconst nb nbe = Ok si.

  Record plain_layout : Prop := {
    pa_cm1 : forall c, c < ncm -> nth_error (si_cm_n si) c = Some (2 * c) /\ nth_error (si_map si) (2 * c) = Some (Scm1_n, c, 1) /\
      nth_error (si_cm_2ns si) c = Some (2 * c + 1) /\ nth_error (si_map si) (2 * c + 1) = Some (Scm1_2ns, c, 1);
    pa_cm3 : forall c, c < nim -> nth_error (si_cm_n si) (ncm + c) = Some (2 * (ncm + c)) /\ nth_error (si_map si) (2 * (ncm + c)) = Some (Scm3_n, c, 1) /\
      nth_error (si_cm_2ns si) (ncm + c) = Some (2 * (ncm + c) + 1) /\ nth_error (si_map si) (2 * (ncm + c) + 1) = Some (Scm3_2ns, c, 1);
    pa_cm4 : forall c, c < qd -> nth_error (si_cm_2ns si) (ncm + nim + c) = Some (2 * (ncm + nim + c) + 1) /\ nth_error (si_map si) (2 * (ncm + nim + c) + 1) = Some (Scm4_2ns, q * c, q);
    pa_width : si_width si Scm1_n = ncm /\ si_width si Scm1_2ns = ncm /\ si_width si Scm2_n = 0 /\ si_width si Scm2_2ns = 0 /\ si_width si Scm3_n = nim /\ si_width si Scm3_2ns = nim /\
      si_width si Scm4_n = q * qd /\ si_width si Scm4_2ns = q * qd /\ si_width si Sq_2ns = q /\ si_width si Sf_2ns = 3 /\ si_width si Stmpexp_n = 0;
    pa_rest : si_nconst si = nconst /\ si_qdim si = q /\ si_nbits si = nb /\ si_nbits_ext si = nbe }.

  Lemma nth_2 (f : nat -> nat) n c : c < n -> nth_error (map f (seq 0 n)) c = Some (f c).
  Proof. intros H. rewrite nth_error_map. rewrite (nth_error_nth' _ 0) by (rewrite seq_length; exact H). rewrite seq_nth by exact H. reflexivity. Qed.
  Lemma pols_cases x : In x (co_pols k) -> x = mkPT "cm1_n" 0 1 \/ x = mkPT "cm1_2ns" 0 1 \/ x = mkPT "cm3_n" 0 1 \/ x = mkPT "cm3_2ns" 0 1 \/ x = mkPT "cm4_n" 0 q \/ x = mkPT "cm4_2ns" 0 q \/ x = mkPT "q_2ns" 0 q \/ x = mkPT "f_2ns" 0 3.
  Proof.
    rewrite Hp. intros H. apply in_app_or in H. destruct H as [H|H]; [apply pairs_in in H; tauto|]. apply in_app_or in H. destruct H as [H|H]; [apply pairs_in in H; tauto|].
    apply in_app_or in H. destruct H as [H|H]; [apply pairs_in in H; tauto|]. destruct H as [<-|[<-|[]]]; tauto.
  Qed.
  Lemma place_ok : plain_layout.
  Proof.
    pose proof Hl as HL. unfold layout_of in HL. destruct (map_section_uniform (co_pols k)) as [l' [w [E [Hs HU]]]]. rewrite E in HL. cbn [bind fst snd] in HL.
    apply bind_ok in HL. destruct HL as [r [Hr HH]]. clear Hl. injection HH as HS.
    assert (U : forall s d, (forall x, In x [mkPT "cm1_n" 0 1; mkPT "cm1_2ns" 0 1; mkPT "cm3_n" 0 1; mkPT "cm3_2ns" 0 1; mkPT "cm4_n" 0 q; mkPT "cm4_2ns" 0 q; mkPT "q_2ns" 0 q; mkPT "f_2ns" 0 3] -> pt_sec x = s -> pt_dim x = d) -> uniform s d (co_pols k)).
    { intros s d Hyp x Hx. apply Hyp. cbn [In]. destruct (pols_cases x Hx) as [-> | [-> | [-> | [-> | [-> | [-> | [-> | ->]]]]]]]; tauto. }
    assert (N1 : forall s, In s names -> (forall x, In x [mkPT "cm1_n" 0 1; mkPT "cm1_2ns" 0 1; mkPT "cm3_n" 0 1; mkPT "cm3_2ns" 0 1; mkPT "cm4_n" 0 q; mkPT "cm4_2ns" 0 q; mkPT "q_2ns" 0 q; mkPT "f_2ns" 0 3] -> pt_sec x = s -> pt_dim x = 1) ->
      index_get (w_n w) s = Some (1 * count s 1 (co_pols k)) /\ forall i y, nth_error (co_pols k) i = Some y -> pt_sec y = s -> nth_error l' i = Some (mkPT s (1 * count s 1 (firstn i (co_pols k))) 1)).
    { intros s Hin Hyp. apply HU; [exact Hin | now left | apply U, Hyp]. }
    assert (NQ : forall s, In s names -> (forall x, In x [mkPT "cm1_n" 0 1; mkPT "cm1_2ns" 0 1; mkPT "cm3_n" 0 1; mkPT "cm3_2ns" 0 1; mkPT "cm4_n" 0 q; mkPT "cm4_2ns" 0 q; mkPT "q_2ns" 0 q; mkPT "f_2ns" 0 3] -> pt_sec x = s -> pt_dim x = q) ->
      index_get (w_n w) s = Some (q * count s q (co_pols k)) /\ forall i y, nth_error (co_pols k) i = Some y -> pt_sec y = s -> nth_error l' i = Some (mkPT s (q * count s q (firstn i (co_pols k))) q)).
    { intros s Hin Hyp. apply HU; [exact Hin | exact Hq | apply U, Hyp]. }
    assert (CI : forall s e, count s e (co_pols k) = ncm * count s e [mkPT "cm1_n" 0 1; mkPT "cm1_2ns" 0 1] + (nim * count s e [mkPT "cm3_n" 0 1; mkPT "cm3_2ns" 0 1] + (qd * count s e [mkPT "cm4_n" 0 q; mkPT "cm4_2ns" 0 q] + count s e [mkPT "q_2ns" 0 q; mkPT "f_2ns" 0 3]))).
    { intros s e. rewrite Hp, !count_app, !count_pairs. reflexivity. }
    Ltac uni := intros x Hx; cbn [In] in Hx; repeat (destruct Hx as [<-|Hx]; [intros X; first [discriminate X | reflexivity]|]); destruct Hx.
    Ltac nam := unfold names; cbn; tauto.
    Ltac cnt := unfold count, sel; cbn [filter pt_sec pt_dim String.eqb Ascii.eqb Bool.eqb andb Nat.eqb List.length app]; rewrite ?Nat.eqb_refl; cbn [List.length].
    assert (MM : forall i y, nth_error l' i = Some y -> forall s, sec_of (pt_sec y) = Ok s -> nth_error r i = Some (s, pt_pos y, pt_dim y)).
    { intros i y Hy s Hsec. destruct (mapM_nth _ _ _ _ _ Hr Hy) as [z [Hz Ez]]. rewrite Hsec in Hz. cbn [bind] in Hz. congruence. }
    constructor; rewrite <- HS; cbn [si_map si_cm_n si_cm_2ns si_width si_nconst si_qdim si_nbits si_nbits_ext]; rewrite ?Hn, ?H2; clear HS.
    - intros c Hc. destruct (pairs_nth "cm1_n" "cm1_2ns" 1 ncm c [] (pairs "cm3_n" "cm3_2ns" 1 nim ++ pairs "cm4_n" "cm4_2ns" q qd ++ [mkPT "q_2ns" 0 q; mkPT "f_2ns" 0 3]) Hc) as [P1 [P2 [P3 P4]]].
      cbn [app List.length Nat.add] in P1, P2, P3, P4. rewrite <- Hp in P1, P2, P3, P4.
      split; [apply nth_2; lia|]. split.
      { destruct (N1 "cm1_n"%string ltac:(nam) ltac:(uni)) as [_ G]. specialize (G _ _ P1 eq_refl). rewrite P3, count_pairs in G. rewrite (MM _ _ G Scm1_n eq_refl). cbn [pt_pos pt_dim]. repeat f_equal. cnt. lia. }
      split; [apply (nth_2 (fun i => 2 * i + 1)); lia|].
      destruct (N1 "cm1_2ns"%string ltac:(nam) ltac:(uni)) as [_ G]. specialize (G _ _ P2 eq_refl). rewrite P4, count_app, count_pairs in G. rewrite (MM _ _ G Scm1_2ns eq_refl). cbn [pt_pos pt_dim]. repeat f_equal. cnt. lia.
    - intros c Hc. destruct (pairs_nth "cm3_n" "cm3_2ns" 1 nim c (pairs "cm1_n" "cm1_2ns" 1 ncm) (pairs "cm4_n" "cm4_2ns" q qd ++ [mkPT "q_2ns" 0 q; mkPT "f_2ns" 0 3]) Hc) as [P1 [P2 [P3 P4]]].
      rewrite pairs_len in P1, P2, P3, P4. rewrite <- Nat.mul_add_distr_l in P1, P2, P3, P4. rewrite <- Hp in P1, P2, P3, P4.
      split; [apply nth_2; lia|]. split.
      { destruct (N1 "cm3_n"%string ltac:(nam) ltac:(uni)) as [_ G]. specialize (G _ _ P1 eq_refl). rewrite P3, count_app, !count_pairs in G. rewrite (MM _ _ G Scm3_n eq_refl). cbn [pt_pos pt_dim]. repeat f_equal. cnt. lia. }
      split; [apply (nth_2 (fun i => 2 * i + 1)); lia|].
      destruct (N1 "cm3_2ns"%string ltac:(nam) ltac:(uni)) as [_ G]. specialize (G _ _ P2 eq_refl). rewrite P4, !count_app, !count_pairs in G. rewrite (MM _ _ G Scm3_2ns eq_refl). cbn [pt_pos pt_dim]. repeat f_equal. cnt. lia.
    - intros c Hc. destruct (pairs_nth "cm4_n" "cm4_2ns" q qd c (pairs "cm1_n" "cm1_2ns" 1 ncm ++ pairs "cm3_n" "cm3_2ns" 1 nim) [mkPT "q_2ns" 0 q; mkPT "f_2ns" 0 3] Hc) as [_ [P2 [_ P4]]].
      rewrite app_length, !pairs_len in P2, P4. rewrite <- !Nat.mul_add_distr_l in P2, P4. rewrite <- !app_assoc in P2, P4. rewrite <- Hp in P2, P4.
      split; [apply (nth_2 (fun i => 2 * i + 1)); lia|].
      destruct (NQ "cm4_2ns"%string ltac:(nam) ltac:(uni)) as [_ G]. specialize (G _ _ P2 eq_refl). rewrite P4, !count_app, !count_pairs in G. rewrite (MM _ _ G Scm4_2ns eq_refl). cbn [pt_pos pt_dim]. do 3 f_equal. cnt. f_equal. lia.
    - cbn [width_of].
      assert (W : forall s n a, index_get (w_n w) s = Some a -> index_get (w_n w) s = Some n -> a = n) by (intros; congruence).
      split; [eapply (W "cm1_n"%string); [reflexivity|]; rewrite (proj1 (N1 "cm1_n"%string ltac:(nam) ltac:(uni))), CI; cnt; f_equal; lia|].
      split; [eapply (W "cm1_2ns"%string); [reflexivity|]; rewrite (proj1 (N1 "cm1_2ns"%string ltac:(nam) ltac:(uni))), CI; cnt; f_equal; lia|].
      split; [eapply (W "cm2_n"%string); [reflexivity|]; rewrite (proj1 (N1 "cm2_n"%string ltac:(nam) ltac:(uni))), CI; cnt; f_equal; lia|].
      split; [eapply (W "cm2_2ns"%string); [reflexivity|]; rewrite (proj1 (N1 "cm2_2ns"%string ltac:(nam) ltac:(uni))), CI; cnt; f_equal; lia|].
      split; [eapply (W "cm3_n"%string); [reflexivity|]; rewrite (proj1 (N1 "cm3_n"%string ltac:(nam) ltac:(uni))), CI; cnt; f_equal; lia|].
      split; [eapply (W "cm3_2ns"%string); [reflexivity|]; rewrite (proj1 (N1 "cm3_2ns"%string ltac:(nam) ltac:(uni))), CI; cnt; f_equal; lia|].
      split; [eapply (W "cm4_n"%string); [reflexivity|]; rewrite (proj1 (NQ "cm4_n"%string ltac:(nam) ltac:(uni))), CI; cnt; f_equal; lia|].
      split; [eapply (W "cm4_2ns"%string); [reflexivity|]; rewrite (proj1 (NQ "cm4_2ns"%string ltac:(nam) ltac:(uni))), CI; cnt; f_equal; lia|].
      split; [eapply (W "q_2ns"%string); [reflexivity|]; rewrite (proj1 (NQ "q_2ns"%string ltac:(nam) ltac:(uni))), CI; cnt; f_equal; lia|].
      split; [eapply (W "f_2ns"%string); [reflexivity|]; rewrite (proj1 (HU "f_2ns"%string 3 ltac:(nam) (or_intror eq_refl) (U "f_2ns"%string 3 ltac:(uni)))), CI; cnt; f_equal; lia|].
      eapply (W "tmpexp_n"%string); [reflexivity|]; rewrite (proj1 (N1 "tmpexp_n"%string ltac:(nam) ltac:(uni))), CI; cnt; f_equal; lia.
    - repeat split.
  Qed.
End Place.
