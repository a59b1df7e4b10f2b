(* The transforms of FftpModel.v keep buffers of base elements in the base field. *)
From Verif Require Import Base GlModel FrField F3gModel Cubic F3gProof ListAux PolyModel HashModel FftpModel HashProof FftProof FftTop.
Open Scope nat_scope.
Open Scope res_scope.

Definition base (x : F3G) : Prop := exists r, x = e_from r.
Lemma base_from x : base (e_from x). Proof. now exists x. Qed.
Lemma base_add a b : base a -> base b -> base (e_add a b).
Proof. intros [x ->] [y ->]. eexists. reflexivity. Qed.
Lemma base_sub a b : base a -> base b -> base (e_sub a b).
Proof. intros [x ->] [y ->]. eexists. reflexivity. Qed.
Lemma base_mul a b : base a -> base b -> base (e_mul a b).
Proof. intros [x ->] [y ->]. eexists. reflexivity. Qed.
Lemma base_inv a : base a -> base (e_inv a).
Proof. intros [x ->]. eexists. reflexivity. Qed.

Lemma base_exp_pos a e : base a -> base (e_exp_pos a e).
Proof.
  assert (SQ : forall x, base x -> base (e_square x)) by (intros x [r ->]; eexists; reflexivity).
  intros H. induction e; cbn [e_exp_pos]; auto using base_mul.
Qed.
Lemma base_exp a e : base a -> base (e_exp a e).
Proof. intros H. destruct e; try (eexists; reflexivity). apply base_exp_pos. exact H. Qed.

Lemma vget_P {A} (P : A -> Prop) l i x : Forall P l -> vget l i = Ok x -> P x.
Proof. intros H E. apply vget_inv in E. rewrite Forall_forall in H. apply H. eapply nth_error_In; exact E. Qed.
Lemma vset_P {A} (P : A -> Prop) l : forall i x l', Forall P l -> P x -> vset l i x = Ok l' -> Forall P l'.
Proof.
  unfold vset. induction l as [|a l IH]; intros i x l' H Hx E; [destruct i; discriminate E|]. inversion H; subst.
  destruct i as [|i]; cbn [vset_aux] in E; [injection E as <-; constructor; assumption|].
  specialize (IH i x). destruct (vset_aux l i x) as [r|]; [|discriminate E]. injection E as <-. constructor; [assumption|]. apply IH; auto.
Qed.
Lemma mapM_P {A B} (P : B -> Prop) (f : A -> res B) l : forall r, (forall x y, In x l -> f x = Ok y -> P y) -> mapM f l = Ok r -> Forall P r.
Proof.
  induction l as [|a l IH]; intros r H E; cbn [mapM] in E; [injection E as <-; constructor|].
  apply bind_ok in E. destruct E as [b [E1 E]]. apply bind_ok in E. destruct E as [bs [E2 E]]. injection E as <-.
  constructor; [eapply H; [left; reflexivity|exact E1]|]. apply IH; [|exact E2]. intros x y I. apply H. right. exact I.
Qed.
Lemma foldM_P {A B} (P : B -> Prop) (f : B -> A -> res B) l : (forall b x b', P b -> f b x = Ok b' -> P b') -> forall b r, P b -> foldM f l b = Ok r -> P r.
Proof.
  intros H. induction l as [|a l IH]; intros b r Hb E; cbn [foldM] in E; [injection E as <-; exact Hb|].
  apply bind_ok in E. destruct E as [b1 [E1 E]]. eapply IH; [|exact E]. eapply H; eauto.
Qed.
Lemma concat_P {A} (P : A -> Prop) l : Forall (Forall P) l -> Forall P (concat l).
Proof. induction 1; cbn; [constructor|]. apply Forall_app. split; assumption. Qed.
Lemma firstn_P {A} (P : A -> Prop) n l : Forall P l -> Forall P (firstn n l).
Proof. intros H. rewrite <- (firstn_skipn n l) in H. apply Forall_app in H. apply H. Qed.
Lemma skipn_P {A} (P : A -> Prop) n l : Forall P l -> Forall P (skipn n l).
Proof. intros H. rewrite <- (firstn_skipn n l) in H. apply Forall_app in H. apply H. Qed.
Lemma chunks_f_P {A} (P : A -> Prop) fuel k : forall l, Forall P l -> Forall (Forall P) (chunks_f fuel k l).
Proof.
  induction fuel as [|fu IH]; intros [|a l] H; cbn [chunks_f]; try constructor.
  - apply firstn_P. exact H.
  - apply IH. apply skipn_P. exact H.
Qed.
Lemma chunks_P {A} (P : A -> Prop) k (l : list A) : Forall P l -> Forall (Forall P) (chunks k l).
Proof. apply chunks_f_P. Qed.
Lemma repeat_P {A} (P : A -> Prop) x n : P x -> Forall P (repeat x n).
Proof. intros H. induction n; cbn; constructor; auto. Qed.
Notation bases := (Forall base).

Ltac bo E := let a := fresh "a" in let H := fresh "E" in apply bind_ok in E; destruct E as [a [H E]].

Lemma transpose_base dst src np nbits tb r : bases dst -> bases src -> transpose dst src np nbits tb = Ok r -> bases r.
Proof.
  intros Hd Hs E. unfold transpose in E. revert E. apply (foldM_P bases); [|exact Hd]. intros b i b' Hb. apply (foldM_P bases); [|exact Hb].
  intros c j c' Hc. apply (foldM_P bases); [|exact Hc]. intros d k d' Hd' E. bo E. eapply vset_P; [exact Hd'| |exact E]. (eapply vget_P; [|eassumption]; assumption).
Qed.
Lemma bit_reverse_base ris dst src np nbits r : bases src -> bit_reverse ris dst src np nbits = Ok r -> bases r.
Proof.
  intros Hs E. unfold bit_reverse in E. destruct (negb _); [discriminate E|]. revert E. apply mapM_P. intros x y _ E. bo E. (eapply vget_P; [|eassumption]; assumption).
Qed.
Lemma ibr_base ris dst src np nbits r : bases dst -> bases src -> interpolate_bit_reverse ris dst src np nbits = Ok r -> bases r.
Proof.
  intros Hd Hs E. unfold interpolate_bit_reverse in E. destruct (_ || _)%bool; [discriminate E|]. bo E. injection E as <-.
  apply Forall_app. split; [|apply skipn_P; exact Hd]. apply concat_P. revert E0. apply mapM_P. intros x y _ E. bo E.
  destruct (_ <? _); [discriminate E|]. revert E. apply mapM_P. intros u v _ E. (eapply vget_P; [|eassumption]; assumption).
Qed.
Lemma invbr_base ris dst src np nbits r : bases src -> inv_bit_reverse ris dst src np nbits = Ok r -> bases r.
Proof.
  intros Hs E. unfold inv_bit_reverse in E. destruct (negb _); [discriminate E|]. revert E. apply mapM_P. intros x y _ E. bo E.
  destruct (_ <? _); [discriminate E|]. bo E. injection E as <-. apply base_mul; [(eapply vget_P; [|eassumption]; assumption)|apply base_inv; eexists; reflexivity].
Qed.
Lemma prep_rows_base cnt width : forall w inc buff, base w -> base inc -> bases buff -> bases (prep_rows cnt width w inc buff).
Proof.
  induction cnt as [|c IH]; intros w inc buff Hw Hi Hb; cbn [prep_rows]; [exact Hb|]. apply Forall_app. split.
  - rewrite Forall_map. eapply Forall_impl; [|apply firstn_P; exact Hb]. intros x Hx. apply base_mul; assumption.
  - apply IH; [apply base_mul; assumption|assumption|apply skipn_P; exact Hb].
Qed.
Lemma bf_cell_base w buff a b r : base w -> bases buff -> bf_cell w buff a b = Ok r -> bases r.
Proof.
  intros Hw Hb E. unfold bf_cell in E. bo E. cbv zeta in E. bo E. bo E.
  pose proof (vget_P _ _ _ _ Hb E0). pose proof (vget_P _ _ _ _ Hb E1).
  assert (H2 : bases a2). { eapply vset_P; [exact Hb| |exact E2]. apply base_add; [assumption|apply base_mul; assumption]. }
  eapply vset_P; [exact H2| |exact E]. apply base_sub; [assumption|apply base_mul; assumption].
Qed.
Lemma bf_rows_base cnt : forall pos md2 np w winc buff r, base w -> base winc -> bases buff -> bf_rows cnt pos md2 np w winc buff = Ok r -> bases r.
Proof.
  induction cnt as [|c IH]; intros pos md2 np w winc buff r Hw Hi Hb E; cbn [bf_rows] in E; [injection E as <-; exact Hb|].
  bo E. eapply IH; [| | |exact E]; [apply base_mul; assumption|assumption|]. revert E0. apply (foldM_P bases); [|exact Hb].
  intros b x b' Hb' E'. exact (bf_cell_base _ _ _ _ _ Hw Hb' E').
Qed.
Lemma first_w_base start nbits s bb l w : first_w start nbits s bb l = Ok w -> base w.
Proof.
  unfold first_w. intros E. destruct (bb <? s); [|injection E as <-; eexists; reflexivity]. destruct (s <? l); [discriminate E|]. cbv zeta in E.
  destruct (_ =? 0); [discriminate E|]. bo E. injection E as <-. eexists. reflexivity.
Qed.
Lemma last_base start rel nbits s bb l md2 np buff r :
  bases buff -> (do w <- first_w start nbits s bb l; do g <- (if md2 =? 0 then Ok f1 else MG l); bf_rows md2 (start - rel) md2 np w (e_from g) buff) = Ok r -> bases r.
Proof. intros Hb E. bo E. bo E. eapply bf_rows_base; [| |exact Hb|exact E]; [eapply first_w_base; exact E0|eexists; reflexivity]. Qed.
Lemma fft_block_base bb : forall buff rel start np nbits s l r, bases buff -> fft_block bb buff rel start np nbits s l = Ok r -> bases r.
Proof.
  induction bb as [|bb IH]; intros buff rel start np nbits s l r Hb E; cbn [fft_block] in E.
  - destruct (1 <? l); [discriminate E|]. bo E. cbn in E. injection E as <-. exact Hb.
  - destruct (l <? S bb).
    + bo E. eapply IH; [|exact E]. eapply IH; [|exact E0]. exact Hb.
    + bo E. eapply last_base; [|exact E]. destruct (1 <? l); [|injection E0 as <-; exact Hb]. destruct (s =? 0); [discriminate E0|].
      bo E0. eapply IH; [|exact E0]. eapply IH; [|exact E1]. exact Hb.
Qed.
Lemma fft_pass_base bin np nbits bb i si r : bases bin -> fft_pass bin np nbits bb i si = Ok r -> bases r.
Proof.
  intros Hb E. unfold fft_pass in E. cbv zeta in E. destruct (_ =? 0); [discriminate E|]. bo E. injection E as <-. apply concat_P.
  revert E0. apply mapM_P. intros [j c] y I E. eapply fft_block_base; [|exact E]. cbn [snd]. apply in_combine_r in I.
  pose proof (chunks_P base (2 ^ bb * np) bin Hb) as H. rewrite Forall_forall in H. apply H. exact I.
Qed.
Lemma fft_rounds_base cnt : forall i np nbits bb bin bout sw b1 b2 sw', bases bin -> bases bout ->
  fft_rounds cnt i np nbits bb bin bout sw = Ok (b1, b2, sw') -> bases b1 /\ bases b2.
Proof.
  induction cnt as [|c IH]; intros i np nbits bb bin bout sw b1 b2 sw' H1 H2 E; cbn [fft_rounds] in E.
  - injection E as <- <- _. split; assumption.
  - destruct (nbits <=? i); [injection E as <- <- _; split; assumption|]. cbv zeta in E. bo E. pose proof (fft_pass_base _ _ _ _ _ _ _ H1 E0).
    destruct (_ <? nbits).
    + bo E. eapply IH; [| |exact E]; [eapply transpose_base; [exact H2| |exact E1]; assumption|assumption].
    + eapply IH; [| |exact E]; assumption.
Qed.
Lemma all_rounds_base np nbits bb bin bout b1 b2 sw : bases bin -> bases bout -> all_rounds np nbits bb bin bout = Ok (b1, b2, sw) -> bases b1 /\ bases b2.
Proof. intros H1 H2 E. unfold all_rounds in E. destruct (bb =? 0); [discriminate E|]. eapply fft_rounds_base; [| |exact E]; assumption. Qed.

Lemma p_fft_base workers inverse src np nbits dst st out st' : bases src -> bases dst ->
  p_fft workers inverse src np nbits dst st = (Ok out, st') -> bases out.
Proof.
  intros Hs Hd E. unfold p_fft in E. cbv zeta in E. set (tmp := repeat e_ZERO (2 ^ nbits * np)) in *.
  assert (Ht : bases tmp) by (apply repeat_P; eexists; reflexivity). clearbody tmp.
  destruct (block_bits workers np nbits) as [bb| | |]; try discriminate E. destruct (n_transposes nbits bb) as [nt| | |]; try discriminate E.
  set (odd := Nat.odd nt) in *. clearbody odd.
  assert (G : exists bo bi, (if odd then (tmp, dst) else (dst, tmp)) = (bo, bi) /\ bases bo /\ bases bi)
    by (destruct odd; eexists; eexists; (split; [reflexivity|]); split; assumption).
  destruct G as [b_o [b_i [G [Go Gi]]]]. rewrite G in E. destruct (BRs 0 (2 ^ nbits) nbits st) as [ris st1]. apply (f_equal fst) in E. cbn [fst] in E.
  bo E. bo E. bo E. destruct a1 as [[b1 b2] sw]. injection E as E.
  assert (bases a0) by (destruct inverse; [eapply invbr_base|eapply bit_reverse_base]; [|exact E1| |exact E1]; exact Hs).
  destruct (all_rounds_base _ _ _ _ _ _ _ _ H Gi E2) as [K1 K2]. destruct (xorb odd sw); subst out; assumption.
Qed.

Lemma prepare_base workers buff np nbits r : bases buff -> interpolate_prepare workers buff np nbits = Ok r -> bases r.
Proof.
  intros Hb E. unfold interpolate_prepare in E. cbv zeta in E. destruct (_ || _)%bool; [discriminate E|]. destruct (_ || _)%bool; [discriminate E|].
  bo E. injection E as <-. apply Forall_app. split; [|apply skipn_P; exact Hb]. apply concat_P. revert E0. apply mapM_P.
  intros [j c] y I E. unfold interpolate_prepare_block in E. destruct (np =? 0); [discriminate E|]. injection E as <-. cbn [fst snd].
  assert (X : forall n, base (e_exp (e_from SHIFT) (Z.of_nat n))) by (intros n; apply base_exp; eexists; reflexivity).
  apply prep_rows_base; [apply base_mul; [apply base_inv; eexists; reflexivity|apply X]|eexists; reflexivity|].
  apply in_combine_r in I. match type of I with In _ (chunks ?k ?l) => pose proof (chunks_P base k l (firstn_P _ _ _ Hb)) as H end.
  rewrite Forall_forall in H. apply H. exact I.
Qed.

Lemma interpolate_base workers src np nbits dst nbe st out st' : bases src -> bases dst ->
  interpolate workers src np nbits dst nbe st = (Ok out, st') -> bases out.
Proof.
  intros Hs Hd E. unfold interpolate in E. destruct src as [|s0 src'] eqn:Es; [injection E as <- <-; exact Hd|]. rewrite <- Es in *. clear Es s0 src'.
  cbv zeta in E. set (tmp := repeat e_ZERO (2 ^ nbe * np)) in *. assert (Ht : bases tmp) by (apply repeat_P; eexists; reflexivity). clearbody tmp.
  destruct (block_bits workers np nbits) as [bb| | |]; try discriminate E. destruct (n_transposes nbits bb) as [nt1| | |]; try discriminate E.
  destruct (block_bits workers np nbe) as [bbe| | |]; try discriminate E. destruct (n_transposes nbe bbe) as [nt2| | |]; try discriminate E.
  set (odd := Nat.odd (nt1 + 1 + nt2)) in *. clearbody odd.
  assert (G : exists bo bi, (if odd then (tmp, dst) else (dst, tmp)) = (bo, bi) /\ bases bo /\ bases bi)
    by (destruct odd; eexists; eexists; (split; [reflexivity|]); split; assumption).
  destruct G as [b_o [b_i [G [Go Gi]]]]. rewrite G in E. destruct (BRs 0 (2 ^ nbits) nbits st) as [ris st1].
  match type of E with (match ?m with Ok _ => _ | Err => _ | Panic => _ | Hang => _ end) = _ => destruct m as [[[b bo_] sw]| | |] eqn:Em end;
    try discriminate E.
  destruct (BRs 0 (2 ^ nbe) nbe st1) as [ris2 st2]. apply (f_equal fst) in E. cbn [fst] in E.
  bo Em. bo Em. bo Em. destruct a1 as [[b1 b2] sw1]. bo Em. injection Em as <- <- <-.
  pose proof (ibr_base _ _ _ _ _ _ Go Hs E1) as K0. destruct (all_rounds_base _ _ _ _ _ _ _ _ K0 Gi E2) as [K1 K2].
  pose proof (prepare_base _ _ _ _ _ K1 E3) as K3. bo E. bo E. bo E. destruct a4 as [[b4 b5] sw2]. injection E as E.
  pose proof (bit_reverse_base _ _ _ _ _ _ K3 E5) as K4. destruct (all_rounds_base _ _ _ _ _ _ _ _ K4 K3 E6) as [K5 K6].
  destruct (xorb odd (xorb (negb sw1) sw2)); subst out; assumption.
Qed.
