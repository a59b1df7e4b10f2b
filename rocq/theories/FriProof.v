(* The commit, query and verification phases of fri.rs. *)
From Verif Require Import Base ListAux GlModel FrField F3gModel Cubic F3gProof PolyModel Roots PolyProof FftProof FftTop
  HashModel HashProof MerkleProof TranscriptProof FriModel FriMath.
From Coq Require Import Field.
Open Scope nat_scope.
Add Field KFp : K_field.

(** ** rows of words *)
Definition words (l : list F3G) : list Fr := concat (map (fun e => [c0 e; c1 e; c2 e]) l).
Lemma words_len l : length (words l) = 3 * length l.
Proof. unfold words. induction l; cbn [map concat app length] in *; lia. Qed.
Lemma dim3_new e : dim3 e -> e_new (c0 e) (c1 e) (c2 e) = e.
Proof. unfold dim3. destruct e as [a b c d]. cbn. intros ->. reflexivity. Qed.
Lemma split3_words l : Forall dim3 l -> FriModel.split3 (words l) = Ok l.
Proof.
  unfold words. induction 1 as [|e l H _ IH]; [reflexivity|]. cbn [map concat app FriModel.split3]. rewrite IH. cbn [bind].
  rewrite dim3_new by exact H. reflexivity.
Qed.
Lemma words_nth l i e k : nth_error l i = Some e -> k < 3 -> nth_error (words l) (i * 3 + k) = nth_error [c0 e; c1 e; c2 e] k.
Proof.
  revert i. unfold words. induction l as [|x l IH]; intros i H Hk; [destruct i; discriminate H|].
  cbn [map concat]. destruct i as [|i]; cbn [nth_error] in H.
  - injection H as ->. cbn [Nat.mul Nat.add]. apply nth_error_app1. cbn. exact Hk.
  - rewrite nth_error_app2 by (cbn [length]; lia). cbn [length]. replace (S i * 3 + k - 3) with (i * 3 + k) by lia. apply IH; assumption.
Qed.
Lemma get3_words l i e : nth_error l i = Some e -> dim3 e -> get3 (words l) i = Ok e.
Proof.
  intros H D. unfold get3.
  rewrite (vget_some (words l) (i * 3) (c0 e)) by (rewrite <- (Nat.add_0_r (i * 3)), (words_nth l i e 0 H) by lia; reflexivity).
  rewrite (vget_some (words l) (i * 3 + 1) (c1 e)) by (rewrite (words_nth l i e 1 H) by lia; reflexivity).
  rewrite (vget_some (words l) (i * 3 + 2) (c2 e)) by (rewrite (words_nth l i e 2 H) by lia; reflexivity).
  cbn [bind]. rewrite dim3_new by exact D. reflexivity.
Qed.

Lemma nth_error_skipn' {A} (l : list A) n k : nth_error (skipn n l) k = nth_error l (n + k).
Proof. revert l. induction n; intros [|x l]; cbn [skipn Nat.add nth_error]; auto. destruct k; reflexivity. Qed.

Definition grp (pol : list F3G) (w h g : nat) : list F3G := map (fun j => nth (j * w + g) pol e_ZERO) (seq 0 h).
Lemma grp_len pol w h g : length (grp pol w h g) = h.
Proof. unfold grp. rewrite map_length, seq_length. reflexivity. Qed.
Lemma grp_nth pol w h g i : i < h -> nth_error (grp pol w h g) i = Some (nth (i * w + g) pol e_ZERO).
Proof.
  intros H. unfold grp. rewrite nth_error_map, (nth_error_nth' _ 0) by (rewrite seq_length; exact H). rewrite seq_nth by exact H. reflexivity.
Qed.
Lemma cell_lt w h i g : i < h -> g < w -> i * w + g < w * h.
Proof. intros. nia. Qed.
Lemma grp_dim3 pol w h g : length pol = w * h -> g < w -> Forall dim3 pol -> Forall dim3 (grp pol w h g).
Proof.
  intros HL Hg H3. unfold grp. apply Forall_map. apply Forall_forall. intros j Hj. apply in_seq in Hj.
  rewrite Forall_forall in H3. apply H3. apply nth_In. rewrite HL. apply cell_lt; lia.
Qed.
Lemma group_grp pol B b g : b <= B -> length pol = pow2 B -> g < pow2 b -> group pol B b g = Ok (grp pol (pow2 b) (pow2 (B - b)) g).
Proof.
  intros Hb HL Hg. unfold group, grp.
  assert (G : forall q, Forall (fun j => j < pow2 (B - b)) q ->
    mapM (fun i => vget pol (i * pow2 b + g)) q = Ok (map (fun j => nth (j * pow2 b + g) pol e_ZERO) q)).
  { induction 1 as [|j q Hj _ IH]; [reflexivity|]. cbn [mapM map].
    rewrite (vget_some pol (j * pow2 b + g) (nth (j * pow2 b + g) pol e_ZERO)).
    - cbn [bind]. rewrite IH. reflexivity.
    - apply nth_error_nth'. rewrite HL. replace (pow2 B) with (pow2 b * pow2 (B - b)) by (rewrite <- Nat.pow_add_r; f_equal; lia).
      apply cell_lt; assumption. }
  apply G. apply Forall_forall. intros j Hj. apply in_seq in Hj. lia.
Qed.

Lemma concat_len {A} (n : nat) (L : list (list A)) : Forall (fun r => length r = n) L -> length (concat L) = length L * n.
Proof. induction 1 as [|r L H _ IH]; cbn [concat length]; [reflexivity|]. rewrite app_length, IH, H. lia. Qed.
Lemma concat_row {A} (n : nat) (L : list (list A)) : Forall (fun r => length r = n) L -> forall i r, nth_error L i = Some r ->
  firstn n (skipn (i * n) (concat L)) = r.
Proof.
  induction 1 as [|x L H _ IH]; intros i r Hi; [destruct i; discriminate Hi|]. cbn [concat]. destruct i as [|i]; cbn [nth_error] in Hi.
  - injection Hi as ->. cbn [Nat.mul skipn]. rewrite firstn_app, H, Nat.sub_diag, firstn_O, app_nil_r. apply firstn_all2. lia.
  - rewrite skipn_app, H. replace (S i * n - n) with (i * n) by lia.
    rewrite (skipn_all2 x) by lia. cbn [app]. apply IH. exact Hi.
Qed.

Lemma transposed_ok pol b b2 : b2 <= b -> length pol = pow2 b -> Forall dim3 pol ->
  exists buf, transposed pol b2 = Ok buf /\ length buf = pow2 b2 * (3 * pow2 (b - b2)) /\
    forall g, g < pow2 b2 -> firstn (3 * pow2 (b - b2)) (skipn (g * (3 * pow2 (b - b2))) buf) = words (grp pol (pow2 b2) (pow2 (b - b2)) g).
Proof.
  intros Hb HL H3. unfold transposed.
  assert (E : pow2 b = pow2 b2 * pow2 (b - b2)) by (rewrite <- Nat.pow_add_r; f_equal; lia).
  pose proof (pow2_pos b2) as P2. cbv zeta.
  assert (D : length pol / pow2 b2 = pow2 (b - b2)) by (rewrite HL, E, Nat.mul_comm; apply Nat.div_mul; lia).
  rewrite D. set (w := pow2 b2) in *. set (h := pow2 (b - b2)) in *.
  assert (R : forall g, g < w -> mapM (fun j => do e <- vget pol (j * w + g); three_words e) (seq 0 h) =
    Ok (map (fun e => [c0 e; c1 e; c2 e]) (grp pol w h g))).
  { intros g Hg. unfold grp.
    assert (G : forall q, Forall (fun j => j < h) q ->
      mapM (fun j => do e <- vget pol (j * w + g); three_words e) q =
      Ok (map (fun e => [c0 e; c1 e; c2 e]) (map (fun j => nth (j * w + g) pol e_ZERO) q))).
    { induction 1 as [|j q Hj _ IH]; [reflexivity|]. cbn [mapM map].
      assert (Lt : j * w + g < length pol) by (rewrite HL, E; apply cell_lt; assumption).
      rewrite (vget_some pol (j * w + g) (nth (j * w + g) pol e_ZERO)) by (apply nth_error_nth'; exact Lt). cbn [bind].
      unfold three_words at 1. rewrite Forall_forall in H3. rewrite (H3 _ (nth_In _ e_ZERO Lt)). cbn [bind]. rewrite IH. reflexivity. }
    apply G. apply Forall_forall. intros j Hj. apply in_seq in Hj. lia. }
  assert (RR : mapM (fun i => do r <- mapM (fun j => do e <- vget pol (j * w + i); three_words e) (seq 0 h); Ok (concat r)) (seq 0 w) =
    Ok (map (fun g => words (grp pol w h g)) (seq 0 w))).
  { assert (G : forall q, Forall (fun g => g < w) q ->
      mapM (fun i => do r <- mapM (fun j => do e <- vget pol (j * w + i); three_words e) (seq 0 h); Ok (concat r)) q =
      Ok (map (fun g => words (grp pol w h g)) q)).
    { induction 1 as [|g q Hg _ IH]; [reflexivity|]. cbn [mapM map]. rewrite (R g Hg). cbn [bind]. rewrite IH. reflexivity. }
    apply G. apply Forall_forall. intros j Hj. apply in_seq in Hj. lia. }
  rewrite RR. cbn [bind].
  assert (FL : Forall (fun r => length r = 3 * h) (map (fun g => words (grp pol w h g)) (seq 0 w))).
  { apply Forall_map. apply Forall_forall. intros g _. rewrite words_len, grp_len. reflexivity. }
  eexists. split; [reflexivity|].
  replace (3 * length pol - 3 * (w * h)) with 0 by (rewrite HL, E; lia). cbn [repeat]. rewrite app_nil_r. split.
  - rewrite (concat_len (3 * h)) by exact FL. rewrite map_length, seq_length. reflexivity.
  - intros g Hg. apply concat_row; [exact FL|]. rewrite nth_error_map, (nth_error_nth' _ 0) by (rewrite seq_length; exact Hg).
    rewrite seq_nth by exact Hg. reflexivity.
Qed.

(** ** squaring the shift *)
Lemma esqn_val n : forall x, val (esqn n x) = kpow (val x) (pow2 n).
Proof.
  induction n; intros x; cbn [esqn].
  - cbn [Nat.pow kpow]. ring.
  - rewrite IHn, val_mul, Nat.pow_succ_r', kpow_mul. f_equal. cbn [kpow]. ring.
Qed.

(** ** degrees *)
Definition zero_from (n : nat) (p : list K) : Prop := forall i, n <= i -> nth i p kzero = kzero.
Lemma kfold_zero R M x p n : zero_from (n * R) p -> zero_from n (kfold R M x p).
Proof.
  intros H i Hi. unfold kfold. destruct (Nat.lt_ge_cases i M) as [L|L].
  - rewrite nth_map_seq by exact L. rewrite (ksum_ext R _ (fun _ => kzero)); [apply ksum_zero; reflexivity|].
    intros j Hj. rewrite H by nia. ring.
  - apply nth_overflow. rewrite map_length, seq_length. exact L.
Qed.

Lemma kpow_nz a n : a <> kzero -> kpow a n <> kzero.
Proof.
  intros H. induction n; cbn [kpow]; [exact kone_neq|]. intros E. apply IHn.
  transitivity (kmul (kmul (kpow a n) a) (kinv a)); [field; exact H|]. rewrite E. ring.
Qed.

(* the interpolation of a layer has the coefficients of the polynomial, scaled by the shift *)
Lemma coset_interp s b p : b <= 31 -> length p = pow2 b ->
  idft b (coset s b p) = map (fun j => kmul (kpow s j) (nth j p kzero)) (seq 0 (pow2 b)).
Proof.
  intros Hb Hp. set (l := map _ _).
  assert (El : length l = pow2 b) by (unfold l; rewrite map_length, seq_length; reflexivity).
  rewrite <- (idft_dft b l Hb El). f_equal. unfold coset, dft. apply map_ext_in. intros i _.
  unfold l. rewrite peval_map_seq, peval_sum, Hp. apply ksum_ext. intros j _. rewrite kpow_prod. ring.
Qed.

Lemma is_zero_val a : F3gProof.wf a -> e_is_zero a = true <-> val a = kzero.
Proof.
  intros W. unfold e_is_zero.
  assert (Z1 : val e_ZEROS = kzero) by reflexivity. assert (Z2 : val e_ZERO = kzero) by reflexivity.
  destruct (d3 a); rewrite e_eqs by (try exact W; try apply wf_from; try apply wf_new); [rewrite Z1|rewrite Z2]; reflexivity.
Qed.

Lemma check_last_ok last s b p md : b <= 31 -> length p = pow2 b -> s <> kzero -> map val last = coset s b p -> Forall dim3 last ->
  (check_last last md = Ok true <-> zero_from (md + 1) p) /\ exists r, check_last last md = Ok r.
Proof.
  intros Hb Hp Hs HV H3. unfold check_last.
  assert (Ll : length last = pow2 b) by (rewrite <- (map_length val), HV, coset_len; reflexivity).
  destruct (ifft_E b last Hb Ll) as [c [Ec Vc]]. rewrite Ec. cbn [bind]. change (car opsE) with F3G in *.
  pose proof (uni_ifft true b last c Hb Ll (proj1 (dim3_uni last) H3) Ec) as Uc.
  rewrite HV, coset_interp in Vc by assumption.
  split; [|eexists; reflexivity].
  assert (Nc : forall i, i < pow2 b -> exists e, nth_error c i = Some e /\ (e_is_zero e = true <-> nth i p kzero = kzero)).
  { intros i Hi. pose proof (f_equal (fun l => nth_error l i) Vc) as E. cbn beta in E. rewrite !nth_error_map in E.
    rewrite (nth_error_nth' (seq 0 (pow2 b)) 0) in E by (rewrite seq_length; exact Hi). rewrite seq_nth in E by exact Hi. cbn [option_map Nat.add] in E.
    destruct (nth_error c i) as [e|] eqn:Ee; [|discriminate E]. cbn [option_map] in E. exists e. split; [reflexivity|].
    assert (We : F3gProof.wf e) by (rewrite Forall_forall in Uc; apply Uc; apply nth_error_In with i; exact Ee).
    rewrite is_zero_val by exact We. assert (E' : val e = kmul (kpow s i) (nth i p kzero)) by congruence. rewrite E'.
    split; intros Q; [|rewrite Q; ring]. pose proof (kpow_nz s i Hs) as Nz.
    transitivity (kmul (kinv (kpow s i)) (kmul (kpow s i) (nth i p kzero))); [field; exact Nz|]. rewrite Q. ring. }
  assert (Lc : @length F3G c = pow2 b) by (rewrite <- (map_length val), Vc, map_length, seq_length; reflexivity).
  split.
  - intros E. assert (E' : forallb e_is_zero (skipn (md + 1) c) = true) by congruence. rewrite forallb_forall in E'. intros i Hi.
    destruct (Nat.lt_ge_cases i (pow2 b)) as [L|L]; [|apply nth_overflow; lia].
    destruct (Nc i L) as [e [Ee Qe]]. apply Qe. apply E'. apply nth_error_In with (i - (md + 1)).
    rewrite nth_error_skipn'. replace (md + 1 + (i - (md + 1))) with i by lia. exact Ee.
  - intros Zf. f_equal. apply forallb_forall. intros e He. apply In_nth_error in He. destruct He as [k Hk]. rewrite nth_error_skipn' in Hk.
    assert (L : md + 1 + k < pow2 b) by (rewrite <- Lc; apply nth_error_Some; congruence).
    destruct (Nc _ L) as [e' [Ee Qe]]. assert (e' = e) by congruence. subst e'. apply Qe. apply Zf. lia.
Qed.

(** ** the protocol *)
Fixpoint steps_ok (b : nat) (rest : list nat) : Prop :=
  match rest with
  | [] => True
  | b2 :: r => b2 <= b /\ 1 <= b2 /\ 3 * pow2 (b - b2) / 8 <= MAX_OPS /\ steps_ok b2 r
  end.

Lemma steps_2_1 : steps_ok 2 [1].
Proof.
  unfold steps_ok. split; [lia|]. split; [lia|]. split; [|exact I].
  change (3 * pow2 (2 - 1) / 8) with 0. apply Nat.le_0_l.
Qed.
Lemma last_dflt {A} (l : list A) x d e : last (x :: l) d = last (x :: l) e.
Proof. revert x. induction l as [|y l IH]; intros x; [reflexivity|]. exact (IH y). Qed.
Lemma last_shift {A} (x d : A) l : last (x :: l) d = last l x.
Proof. destruct l as [|y l]; [reflexivity|]. exact (last_dflt l y d x). Qed.

Section Protocol.
Variable perm : list Fr -> list Fr -> list Fr.
Hypothesis perm_len : forall i s, length (perm i s) = 12.
Variable workers : nat.
Hypothesis workers_nz : workers <> 0.
Variable check_query : list opening -> nat -> res (list F3G).

Lemma challenge_ok t : TranscriptProof.wf t -> exists x t', get_challenge perm t = Ok (x, t') /\ TranscriptProof.wf t'.
Proof.
  intros W. unfold get_challenge, get_field.
  destruct (get_eq perm perm_len t W) as [E1 W1]. rewrite E1. cbn [unwrap bind]. destruct (getp perm t) as [a t1]. cbn [snd] in W1.
  destruct (get_eq perm perm_len t1 W1) as [E2 W2]. rewrite E2. cbn [unwrap bind]. destruct (getp perm t1) as [b t2]. cbn [snd] in W2.
  destruct (get_eq perm perm_len t2 W2) as [E3 W3]. rewrite E3. cbn [unwrap bind]. destruct (getp perm t2) as [c t3]. cbn [snd] in W3.
  exists (e_new a b c), t3. split; [reflexivity|exact W3].
Qed.
Lemma put_ok t es : TranscriptProof.wf t -> exists t', put perm t es = Ok t' /\ TranscriptProof.wf t'.
Proof. intros W. eexists. split; [apply put_eq; [exact perm_len|exact W]|]. apply erun_wf; [exact perm_len|exact W]. Qed.
Lemma three_words_all l : Forall dim3 l -> mapM three_words l = Ok (map (fun e => [c0 e; c1 e; c2 e]) l).
Proof.
  induction 1 as [|e l H _ IH]; [reflexivity|]. cbn [mapM map]. unfold three_words at 1. unfold dim3 in H. rewrite H. cbn [bind].
  rewrite IH. reflexivity.
Qed.
Lemma put_last_ok t l : TranscriptProof.wf t -> Forall dim3 l -> exists t', put_last perm t l = Ok t' /\ TranscriptProof.wf t'.
Proof. intros W H. unfold put_last. rewrite three_words_all by exact H. cbn [bind]. apply put_ok. exact W. Qed.

(* the query opens the groups at the positions ys *)
Definition qok (first : bool) (q : query) (pol : list F3G) (B b : nat) (ys : list nat) : Prop :=
  forall i y, nth_error ys i = Some y -> exists o, nth_error (q_openings q) i = Some o /\
    (if first then check_query o y else check_opening perm (q_root q) o y) = Ok (grp pol (pow2 b) (pow2 (B - b)) y).

Lemma nth_coset s b p y : y < pow2 b -> nth_error (coset s b p) y = Some (peval p (kmul s (kpow (kroot b) y))).
Proof.
  intros H. unfold coset. rewrite nth_error_map, (nth_error_nth' _ 0) by (rewrite seq_length; exact H). rewrite seq_nth by exact H. reflexivity.
Qed.

Lemma v_step_ok (first : bool) q next last pol pol2 B b s p shift x :
  b <= B -> B <= 31 -> map val pol = coset s B p -> length p = pow2 B -> Forall dim3 pol -> s <> kzero -> val shift = s ->
  map val pol2 = coset (kpow s (pow2 (B - b))) b (kfold (pow2 (B - b)) (pow2 b) (val x) p) -> Forall dim3 pol2 ->
  forall ys i, (forall k y, nth_error ys k = Some y -> y < pow2 b /\
      (exists o, nth_error (q_openings q) (i + k) = Some o /\
        (if first then check_query o y else check_opening perm (q_root q) o y) = Ok (grp pol (pow2 b) (pow2 (B - b)) y)) /\
      next_value next last (i + k) y = Ok (nth y pol2 e_ZERO)) ->
    v_step perm check_query first q next last B shift x i ys = Ok true.
Proof.
  intros Hb HB HV Hp H3 Hs Hsh HV2 H32. induction ys as [|y ys IH]; intros i H; [reflexivity|]. cbn [v_step].
  destruct (H 0 y eq_refl) as [Hy [[o [Eo Co]] En]]. rewrite Nat.add_0_r in Eo, En.
  rewrite (vget_some _ _ _ Eo). cbn [bind]. rewrite Co. cbn [bind].
  assert (HL : length pol = pow2 B) by (rewrite <- (map_length val), HV, coset_len; reflexivity).
  destruct (fold_check_ok pol s B b p y (grp pol (pow2 b) (pow2 (B - b)) y) shift x Hb HB HV Hp Hy Hsh Hs (group_grp pol B b y Hb HL Hy) H3) as [v [Ev [Dv Vv]]].
  rewrite Ev. cbn [bind]. rewrite En. cbn [bind].
  assert (Nn : exists e0 r0, grp pol (pow2 b) (pow2 (B - b)) y = e0 :: r0).
  { pose proof (grp_len pol (pow2 b) (pow2 (B - b)) y) as L. pose proof (pow2_pos (B - b)). destruct (grp pol (pow2 b) (pow2 (B - b)) y); cbn [length] in L; [lia|eauto]. }
  destruct Nn as [e0 [r0 En0]]. rewrite En0.
  assert (L2 : length pol2 = pow2 b) by (rewrite <- (map_length val), HV2, coset_len; reflexivity).
  assert (Q : e__eq v (nth y pol2 e_ZERO) = true).
  { assert (In2 : In (nth y pol2 e_ZERO) pol2) by (apply nth_In; lia).
    rewrite Forall_forall in H32. pose proof (H32 _ In2) as D2.
    apply e_eqs; [intros F; unfold dim3 in Dv; congruence|intros F; unfold dim3 in D2; congruence|].
    rewrite Vv. pose proof (nth_coset (kpow s (pow2 (B - b))) b (kfold (pow2 (B - b)) (pow2 b) (val x) p) y Hy) as N. rewrite <- HV2, nth_error_map in N.
    rewrite (nth_error_nth' pol2 e_ZERO) in N by lia. cbn [option_map] in N. congruence. }
  rewrite Q. assert (IH' : v_step perm check_query first q next last B shift x (S i) ys = Ok true).
  { apply IH. intros k z Hk. replace (S i + k) with (i + S k) by lia. apply H. exact Hk. }
  destruct first; exact IH'.
Qed.

Lemma reduce_lt ys b : Forall (fun y => y < pow2 b) (reduce_ys ys b).
Proof. unfold reduce_ys. apply Forall_map. apply Forall_forall. intros y _. apply Nat.mod_upper_bound. pose proof (pow2_pos b). lia. Qed.

(* the openings of one tree *)
Lemma open_tree_ok pol b b2 buf tr root ys : b2 <= b -> 1 <= b2 -> length pol = pow2 b -> Forall dim3 pol ->
  length buf = pow2 b2 * (3 * pow2 (b - b2)) ->
  (forall g, g < pow2 b2 -> firstn (3 * pow2 (b - b2)) (skipn (g * (3 * pow2 (b - b2))) buf) = words (grp pol (pow2 b2) (pow2 (b - b2)) g)) ->
  merkelize perm workers buf (3 * pow2 (b - b2)) (pow2 b2) = Ok tr -> tree_root tr = Ok root -> Forall (fun y => y < pow2 b2) ys ->
  exists os, mapM (fun y => do o <- unwrap (get_group_proof tr y); Ok [o]) ys = Ok os /\
    forall i y, nth_error ys i = Some y -> exists mp,
      nth_error os i = Some [(words (grp pol (pow2 b2) (pow2 (b - b2)) y), mp)] /\
      check_opening perm root [(words (grp pol (pow2 b2) (pow2 (b - b2)) y), mp)] y = Ok (grp pol (pow2 b2) (pow2 (b - b2)) y).
Proof.
  intros Hb H1 HL H3 LB Rows Em Er Hys.
  assert (H2 : 2 <= pow2 b2) by (change 2 with (2 ^ 1) at 1; apply Nat.pow_le_mono_r; lia).
  induction Hys as [|y ys Hy _ IH].
  - exists []. split; [reflexivity|]. intros i y E. destruct i; discriminate E.
  - destruct IH as [os [Eos Fos]].
    destruct (complete perm perm_len workers buf (3 * pow2 (b - b2)) (pow2 b2) tr y H2 LB Em Hy) as [mp [r [Eg [Er' Ev]]]].
    assert (r = root) by congruence. subst r. rewrite (Rows y Hy) in Eg, Ev.
    exists ([(words (grp pol (pow2 b2) (pow2 (b - b2)) y), mp)] :: os). split.
    + cbn [mapM]. rewrite Eg. cbn [unwrap bind]. rewrite Eos. reflexivity.
    + intros i z E. destruct i as [|i]; cbn [nth_error] in E |- *.
      * injection E as <-. exists mp. split; [reflexivity|]. unfold check_opening. cbn [vget nth_error bind fst snd].
        change (vget [(words (grp pol (pow2 b2) (pow2 (b - b2)) y), mp)] 0) with (Ok (words (grp pol (pow2 b2) (pow2 (b - b2)) y), mp)).
        cbn [bind fst snd]. rewrite Ev. cbn [bind]. apply split3_words. apply grp_dim3; [|exact Hy|exact H3].
        rewrite HL, <- Nat.pow_add_r. f_equal. lia.
      * apply Fos. exact E.
Qed.

Lemma next_open_ok pol b b2 os q i y mp last : b2 <= b -> length pol = pow2 b -> Forall dim3 pol -> y < pow2 b -> q_openings q = os ->
  nth_error os i = Some [(words (grp pol (pow2 b2) (pow2 (b - b2)) (y mod pow2 b2)), mp)] ->
  next_value (Some (q, b2)) last i y = Ok (nth y pol e_ZERO).
Proof.
  intros Hb HL H3 Hy Hq E. unfold next_value. rewrite Hq, (vget_some _ _ _ E). cbn [bind].
  match goal with |- bind (vget [?a] 0) _ = _ => change (vget [a] 0) with (Ok a) end. cbn [bind fst].
  pose proof (pow2_pos b2) as P2.
  assert (Ey : y / pow2 b2 * pow2 b2 + y mod pow2 b2 = y) by (rewrite (Nat.mul_comm (y / pow2 b2)); symmetry; apply Nat.div_mod; lia).
  assert (Hd : y / pow2 b2 < pow2 (b - b2)).
  { apply Nat.div_lt_upper_bound; [lia|]. rewrite <- Nat.pow_add_r. replace (b2 + (b - b2)) with b by lia. exact Hy. }
  apply get3_words.
  - rewrite grp_nth by exact Hd. rewrite Ey. reflexivity.
  - rewrite Forall_forall in H3. apply H3. apply nth_In. lia.
Qed.

Theorem rounds : forall rest b (first : bool) t pol B sinv shift s p,
  b <= B -> B <= 31 -> (first = true -> b = B) -> steps_ok b rest -> TranscriptProof.wf t ->
  map val pol = coset s B p -> length p = pow2 B -> Forall dim3 pol -> s <> kzero -> kmul s (val sinv) = kone -> val shift = s ->
  exists trs lst t' sl pl,
    fri_commit perm workers (b :: rest) first t pol B sinv = Ok (trs, lst, t') /\ TranscriptProof.wf t' /\
    map val lst = coset sl (last rest b) pl /\ length pl = pow2 (last rest b) /\ Forall dim3 lst /\ sl <> kzero /\ last rest b <= b /\
    (forall n, zero_from (n * pow2 (B - last rest b)) p -> zero_from n pl) /\
    forall ys, Forall (fun y => y < pow2 b) ys -> exists qs, open_trees trs rest ys = Ok qs /\ length qs = length rest /\
      forall q, qok first q pol B b ys -> exists xs,
        v_challenges perm (b :: rest) t (q :: qs) lst = Ok (xs, t') /\
        v_steps perm check_query first (b :: rest) (q :: qs) xs ys lst B shift = Ok (true, last rest b).
Proof.
  induction rest as [|b2 rest IH]; intros b first t pol B sinv shift s p Hb HB Hf Hst W HV Hp H3 Hs Hsi Hsh;
    cbn [fri_commit];
    destruct (challenge_ok t W) as [x [t1 [Ex W1]]]; rewrite Ex; cbn [bind];
    destruct (fold_layer_ok first pol s B b p sinv x Hb HB Hf HV Hp H3 Hsi) as [pol2 [E2 [D2 V2]]]; rewrite E2; cbn [bind];
    pose proof (kfold_len (pow2 (B - b)) (pow2 b) (val x) p) as Lf;
    assert (L2 : length pol2 = pow2 b) by (rewrite <- (map_length val), V2, coset_len; reflexivity).
  - destruct (put_last_ok t1 pol2 W1 D2) as [t2 [E3 W2]]. rewrite E3. cbn [bind].
    exists [], pol2, t2, (kpow s (pow2 (B - b))), (kfold (pow2 (B - b)) (pow2 b) (val x) p). cbn [last].
    split; [reflexivity|]. split; [exact W2|]. split; [exact V2|]. split; [exact Lf|]. split; [exact D2|].
    split; [apply kpow_nz; exact Hs|]. split; [lia|]. split; [intros n; apply kfold_zero|].
    intros ys Hys. exists []. cbn [open_trees]. split; [reflexivity|]. split; [reflexivity|].
    intros q Hq. exists [x]. cbn [v_challenges]. rewrite Ex. cbn [bind]. rewrite E3. cbn [bind]. split; [reflexivity|].
    cbn [v_steps]. replace (B <? b) with false by (symmetry; apply Nat.ltb_ge; exact Hb). cbn [bind].
    rewrite (v_step_ok first q None pol2 pol pol2 B b s p shift x Hb HB HV Hp H3 Hs Hsh V2 D2); [reflexivity|].
    intros k y Hk. rewrite Forall_forall in Hys. pose proof (Hys y (nth_error_In _ _ Hk)) as Hy. split; [exact Hy|]. split.
    + cbn [Nat.add]. apply Hq. exact Hk.
    + cbn [next_value]. apply vget_some. apply nth_error_nth'. lia.
  - cbn [steps_ok] in Hst. destruct Hst as [Hb2 [H1 [Hm Hst]]].
    replace (b <? b2) with false by (symmetry; apply Nat.ltb_ge; exact Hb2).
    destruct (transposed_ok pol2 b b2 Hb2 L2 D2) as [buf [Eb [LB Rows]]]. rewrite Eb. cbn [bind].
    assert (Dv : pow2 b / pow2 b2 = pow2 (b - b2)).
    { replace b with (b - b2 + b2) at 1 by lia. rewrite Nat.pow_add_r. apply Nat.div_mul. pose proof (pow2_pos b2). lia. }
    rewrite Dv. assert (HH2 : 2 <= pow2 b2) by (change 2 with (2 ^ 1) at 1; apply Nat.pow_le_mono_r; lia).
    destruct (merkelize_total perm perm_len workers buf (3 * pow2 (b - b2)) (pow2 b2) workers_nz HH2 LB Hm) as [tr Et].
    rewrite Et. cbn [bind].
    destruct (complete perm perm_len workers buf (3 * pow2 (b - b2)) (pow2 b2) tr 0 HH2 LB Et ltac:(lia)) as [_ [root [_ [Er _]]]].
    rewrite Er. cbn [bind]. destruct (put_ok t1 [root] W1) as [t2 [E3 W2]]. rewrite E3. cbn [bind].
    assert (Hsi2 : kmul (kpow s (pow2 (B - b))) (val (esqn (B - b) sinv)) = kone).
    { rewrite esqn_val, <- kpow_prod, Hsi, kpow_1. reflexivity. }
    assert (Hsh2 : val (esqn (B - b) shift) = kpow s (pow2 (B - b))) by (rewrite esqn_val, Hsh; reflexivity).
    destruct (IH b2 false t2 pol2 b (esqn (B - b) sinv) (esqn (B - b) shift) (kpow s (pow2 (B - b))) (kfold (pow2 (B - b)) (pow2 b) (val x) p)
      Hb2 ltac:(lia) ltac:(discriminate) Hst W2 V2 Lf D2 (kpow_nz _ _ Hs) Hsi2 Hsh2)
      as [trs [lst [t' [sl [pl [Ec [W' [Vl [Ll [Dl [Nl [Hbl [Zl K]]]]]]]]]]]]].
    cbn [fri_commit] in Ec. rewrite Ec. cbn [bind]. exists (tr :: trs), lst, t', sl, pl.
    rewrite (last_shift b2 b rest).
    split; [reflexivity|]. split; [exact W'|]. split; [exact Vl|]. split; [exact Ll|]. split; [exact Dl|]. split; [exact Nl|].
    split; [lia|]. split.
    { intros n Hz. apply Zl. apply kfold_zero. rewrite <- Nat.mul_assoc, <- Nat.pow_add_r.
      replace (b - last rest b2 + (B - b)) with (B - last rest b2) by lia. exact Hz. }
    intros ys Hys. cbn [open_trees]. set (ys2 := reduce_ys ys b2).
    destruct (open_tree_ok pol2 b b2 buf tr root ys2 Hb2 H1 L2 D2 LB Rows Et Er (reduce_lt ys b2)) as [os [Eo Fo]].
    rewrite Eo. cbn [bind]. rewrite Er. cbn [bind].
    destruct (K ys2 (reduce_lt ys b2)) as [qs [Eq [Lq Kq]]]. rewrite Eq. cbn [bind].
    exists (mkQ os root :: qs). split; [reflexivity|]. split; [cbn [length]; lia|]. intros q Hq.
    assert (Q2 : qok false (mkQ os root) pol2 b b2 ys2).
    { intros i y Hi. destruct (Fo i y Hi) as [mp [N C]]. eexists. split; [exact N|]. exact C. }
    destruct (Kq (mkQ os root) Q2) as [xs [Exs Evs]]. exists (x :: xs). split.
    + cbn [v_challenges]. rewrite Ex. cbn [bind].
      change (vget (q :: mkQ os root :: qs) 1) with (Ok (mkQ os root)). cbn [bind q_root]. rewrite E3. cbn [bind tl].
      cbn [v_challenges tl] in Exs. rewrite Exs. reflexivity.
    + cbn [v_steps] in Evs |- *.
      replace (B <? b) with false by (symmetry; apply Nat.ltb_ge; exact Hb).
      change (vget (mkQ os root :: qs) 0) with (Ok (mkQ os root)). cbn [bind].
      rewrite (v_step_ok first q (Some (mkQ os root, b2)) lst pol pol2 B b s p shift x Hb HB HV Hp H3 Hs Hsh V2 D2); [cbn [bind]; exact Evs|].
      intros k y Hk. rewrite Forall_forall in Hys. pose proof (Hys y (nth_error_In _ _ Hk)) as Hy. split; [exact Hy|]. split.
      * cbn [Nat.add]. apply Hq. exact Hk.
      * cbn [Nat.add]. assert (Hk2 : nth_error ys2 k = Some (y mod pow2 b2)) by (unfold ys2, reduce_ys; rewrite nth_error_map, Hk; reflexivity).
        destruct (Fo k _ Hk2) as [mp [N _]]. apply (next_open_ok pol2 b b2 os (mkQ os root) k y mp lst Hb2 L2 D2 Hy eq_refl N).
Qed.
End Protocol.

(** ** the whole proof *)
Lemma log2_pow k : k <= 31 -> Z.to_nat (log2_any (Z.of_nat (pow2 k))) = k.
Proof.
  intros H. rewrite Nat2Z.inj_pow. change (Z.of_nat 2) with 2%Z. rewrite log2_any_spec.
  - rewrite Z.log2_pow2 by lia. apply Nat2Z.id.
  - split; [apply Z.pow_pos_nonneg; lia|apply Z.pow_lt_mono_r; lia].
Qed.

Definition K_shift : K := kconst SHIFT.
Lemma K_shift_nz : K_shift <> kzero.
Proof. vm_compute. discriminate. Qed.
Lemma shift_pair : kmul K_shift (val (e_from SHIFT_INV)) = kone.
Proof. vm_compute. reflexivity. Qed.

Lemma max_deg_bound bl b0 md n : md <= b0 -> bl <= b0 -> max_deg_of b0 md bl = Ok n ->
  n = (if bl <? b0 - md then 0 else pow2 (bl - (b0 - md))) /\ pow2 md <= (n + 1) * pow2 (b0 - bl) /\
  (b0 - md <= bl -> n * pow2 (b0 - bl) = pow2 md).
Proof.
  intros H1 H2. unfold max_deg_of. replace (b0 <? md) with false by (symmetry; apply Nat.ltb_ge; exact H1). intros E.
  assert (En : n = if bl <? b0 - md then 0 else pow2 (bl - (b0 - md))) by congruence. clear E. split; [exact En|].
  destruct (Nat.ltb_spec bl (b0 - md)) as [L|L]; subst n.
  - split; [|lia]. cbn [Nat.add]. rewrite Nat.mul_1_l. apply Nat.pow_le_mono_r; lia.
  - assert (Q : pow2 (bl - (b0 - md)) * pow2 (b0 - bl) = pow2 md) by (rewrite <- Nat.pow_add_r; f_equal; lia).
    split; [|intros _; exact Q]. rewrite Nat.mul_add_distr_r, Q. lia.
Qed.

Section Whole.
Variable perm : list Fr -> list Fr -> list Fr.
Hypothesis perm_len : forall i s, length (perm i s) = 12.
Variable check_query : list opening -> nat -> res (list F3G).
Variable query_pol : nat -> list opening.

Theorem prove_verify workers b0 rest md nq t pol p :
  workers <> 0 -> b0 <= 31 -> steps_ok b0 rest -> 0 < nq * b0 -> md <= b0 -> TranscriptProof.wf t ->
  map val pol = coset K_shift b0 p -> length p = pow2 b0 -> Forall dim3 pol ->
  (forall y, y < pow2 b0 -> check_query (query_pol y) y = Ok [nth y pol e_ZERO]) ->
  exists pf t', fri_prove perm workers b0 nq (b0 :: rest) t pol query_pol = Ok (pf, t') /\
    forall n, max_deg_of b0 md (last rest b0) = Ok n -> zero_from ((n + 1) * pow2 (b0 - last rest b0)) p ->
      fri_verify perm check_query b0 md nq (b0 :: rest) t pf = Ok true.
Proof.
  intros Hw Hb0 Hst Hnq Hmd W HV Hp H3 Hcq.
  destruct (rounds perm perm_len workers Hw check_query rest b0 true t pol b0 (e_from SHIFT_INV) (e_from SHIFT) K_shift p
    (le_n b0) Hb0 (fun _ => eq_refl) Hst W HV Hp H3 K_shift_nz shift_pair (val_from SHIFT))
    as [trs [lst [t1 [sl [pl [Ec [W1 [Vl [Ll [Dl [Nl [Hbl [Zl K]]]]]]]]]]]]].
  assert (HL : length pol = pow2 b0) by (rewrite <- (map_length val), HV, coset_len; reflexivity).
  unfold fri_prove. rewrite HL, log2_pow by exact Hb0. cbv zeta. rewrite !Nat.eqb_refl. cbn [negb]. rewrite Ec. cbn [bind].
  destruct (permutations perm perm_len t1 nq b0 W1 Hnq ltac:(lia)) as [fields [t2 [r [_ [Ep [Lr Hr]]]]]]. rewrite Ep. cbn [bind fst snd].
  assert (Hys : Forall (fun y => y < pow2 b0) (map Z.to_nat r)).
  { apply Forall_map. apply Forall_forall. intros z Hz. apply (In_nth _ _ 0%Z) in Hz. destruct Hz as [i [Hi <-]].
    destruct (Hr i ltac:(lia)) as [Bz _]. apply Nat2Z.inj_lt. rewrite Z2Nat.id by lia. rewrite Nat2Z.inj_pow. exact (proj2 Bz). }
  destruct (K _ Hys) as [qs [Eo [Lq Kq]]]. rewrite Eo. cbn [bind].
  eexists. exists t2. split; [reflexivity|]. intros n En Hz. unfold fri_verify. cbn [fp_queries fp_last length]. rewrite Lq, Nat.eqb_refl. cbn [negb].
  destruct (Kq (mkQ (map query_pol (map Z.to_nat r)) zero4)) as [xs [Exs Evs]].
  { intros i y Hi. exists (query_pol y). split; [cbn [q_openings]; rewrite nth_error_map, Hi; reflexivity|].
    rewrite Forall_forall in Hys. rewrite Hcq by (apply Hys; apply nth_error_In with i; exact Hi). unfold grp. rewrite Nat.sub_diag. reflexivity. }
  rewrite Exs. cbn [bind snd fst]. rewrite Ep. cbn [bind fst snd]. rewrite Evs. cbn [bind fst snd]. rewrite En. cbn [bind].
  apply (proj1 (check_last_ok lst sl (last rest b0) pl n ltac:(lia) Ll Nl Vl Dl)). apply Zl. exact Hz.
Qed.

(* honest proofs of the intended degree are accepted *)
Theorem complete_fri workers b0 rest md nq t pol p :
  workers <> 0 -> b0 <= 31 -> steps_ok b0 rest -> 0 < nq * b0 -> md <= b0 -> TranscriptProof.wf t ->
  map val pol = coset K_shift b0 p -> length p = pow2 b0 -> Forall dim3 pol ->
  (forall y, y < pow2 b0 -> check_query (query_pol y) y = Ok [nth y pol e_ZERO]) ->
  zero_from (pow2 md) p ->
  exists pf t', fri_prove perm workers b0 nq (b0 :: rest) t pol query_pol = Ok (pf, t') /\
    fri_verify perm check_query b0 md nq (b0 :: rest) t pf = Ok true.
Proof.
  intros Hw Hb0 Hst Hnq Hmd W HV Hp H3 Hcq Hz.
  destruct (prove_verify workers b0 rest md nq t pol p Hw Hb0 Hst Hnq Hmd W HV Hp H3 Hcq) as [pf [t' [E A]]].
  exists pf, t'. split; [exact E|].
  assert (Hbl : last rest b0 <= b0).
  { clear - Hst. revert b0 Hst. induction rest as [|b2 r IH]; intros b0 Hst; [cbn; lia|]. destruct Hst as [Q [_ [_ Q2]]].
    rewrite last_shift. specialize (IH b2 Q2). lia. }
  assert (Em : exists n, max_deg_of b0 md (last rest b0) = Ok n).
  { unfold max_deg_of. replace (b0 <? md) with false by (symmetry; apply Nat.ltb_ge; exact Hmd). eexists. reflexivity. }
  destruct Em as [n En]. apply (A n En). destruct (max_deg_bound _ _ _ _ Hmd Hbl En) as [_ [Q _]]. intros i Hi. apply Hz. lia.
Qed.

(* ... and so are polynomials of higher degree *)
Theorem degree_off_by_one workers b0 rest md nq t :
  workers <> 0 -> b0 <= 31 -> steps_ok b0 rest -> 0 < nq * b0 -> md < b0 -> b0 - md <= last rest b0 -> TranscriptProof.wf t ->
  exists p, length p = pow2 b0 /\ nth (pow2 md) p kzero = kone /\
    forall pol, map val pol = coset K_shift b0 p -> Forall dim3 pol ->
      (forall y, y < pow2 b0 -> check_query (query_pol y) y = Ok [nth y pol e_ZERO]) ->
      exists pf t', fri_prove perm workers b0 nq (b0 :: rest) t pol query_pol = Ok (pf, t') /\
        fri_verify perm check_query b0 md nq (b0 :: rest) t pf = Ok true.
Proof.
  intros Hw Hb0 Hst Hnq Hmd Hext W.
  assert (Lt : pow2 md < pow2 b0) by (apply Nat.pow_lt_mono_r; lia).
  exists (map (fun i => if i =? pow2 md then kone else kzero) (seq 0 (pow2 b0))).
  split; [rewrite map_length, seq_length; reflexivity|]. split; [rewrite nth_map_seq by exact Lt; rewrite Nat.eqb_refl; reflexivity|].
  intros pol HV H3 Hcq.
  destruct (prove_verify workers b0 rest md nq t pol _ Hw Hb0 Hst Hnq ltac:(lia) W HV ltac:(rewrite map_length, seq_length; reflexivity) H3 Hcq) as [pf [t' [E A]]].
  exists pf, t'. split; [exact E|].
  assert (Hbl : last rest b0 <= b0).
  { clear - Hst. revert b0 Hst. induction rest as [|b2 r IH]; intros b0 Hst; [cbn; lia|]. destruct Hst as [Q [_ [_ Q2]]].
    rewrite last_shift. specialize (IH b2 Q2). lia. }
  assert (Em : exists n, max_deg_of b0 md (last rest b0) = Ok n).
  { unfold max_deg_of. replace (b0 <? md) with false by (symmetry; apply Nat.ltb_ge; lia). eexists. reflexivity. }
  destruct Em as [n En]. apply (A n En).
  destruct (max_deg_bound _ _ _ _ (Nat.lt_le_incl _ _ Hmd) Hbl En) as [_ [_ Q]]. specialize (Q Hext).
  intros i Hi. pose proof (pow2_pos (b0 - last rest b0)). rewrite Nat.mul_add_distr_r, Q in Hi.
  destruct (Nat.lt_ge_cases i (pow2 b0)) as [L|L].
  - rewrite nth_map_seq by exact L. replace (i =? pow2 md) with false by (symmetry; apply Nat.eqb_neq; lia). reflexivity.
  - apply nth_overflow. rewrite map_length, seq_length. exact L.
Qed.

Lemma v_challenges_last steps : forall t qs lst r, steps <> [] -> v_challenges perm steps t qs lst = Ok r -> Forall dim3 lst.
Proof.
  induction steps as [|b rest IH]; intros t qs lst r N E; [contradiction|]. cbn [v_challenges] in E.
  destruct (get_challenge perm t) as [[x t1]| | |]; try discriminate E. cbn [bind] in E.
  destruct rest as [|b2 rest].
  - unfold put_last in E. destruct (mapM three_words lst) as [ws| | |] eqn:Ew; try discriminate E. clear - Ew.
    revert ws Ew. induction lst as [|e l IH]; intros ws Ew; [constructor|]. cbn [mapM] in Ew.
    unfold three_words at 1 in Ew. destruct (d3 e) eqn:D; [|discriminate Ew]. cbn [bind] in Ew.
    destruct (mapM three_words l) eqn:El; try discriminate Ew. constructor; [exact D|]. eapply IH. reflexivity.
  - destruct (vget qs 1); try discriminate E. cbn [bind] in E.
    match type of E with bind ?e _ = _ => destruct e as [t2| | |]; try discriminate E end. cbn [bind] in E.
    match type of E with bind ?e _ = _ => destruct e as [r2| | |] eqn:E2; try discriminate E end.
    apply (IH t2 (tl qs) lst r2); [discriminate|exact E2].
Qed.

Lemma v_steps_bits steps : forall (first : bool) qs xs ys lst B shift r,
  v_steps perm check_query first steps qs xs ys lst B shift = Ok r -> fst r = true -> snd r = last steps B.
Proof.
  induction steps as [|b rest IH]; intros first qs xs ys lst B shift r E T; cbn [v_steps] in E.
  - injection E as <-. reflexivity.
  - destruct qs as [|q qs]; [discriminate E|]. destruct xs as [|x xs]; [discriminate E|].
    destruct (B <? b); [discriminate E|]. rewrite last_shift.
    match type of E with bind ?e _ = _ => destruct e as [nx| | |]; try discriminate E end. cbn [bind] in E.
    match type of E with bind ?e _ = _ => destruct e as [ok| | |]; try discriminate E end. cbn [bind] in E.
    destruct ok; [|injection E as <-; discriminate T].
    exact (IH _ _ _ _ _ _ _ _ E T).
Qed.

(* whatever is accepted, the final layer is a polynomial of bounded degree *)
Theorem accepted_degree b0 md nq steps t pf k : k <= 31 -> length (fp_last pf) = pow2 k ->
  fri_verify perm check_query b0 md nq steps t pf = Ok true ->
  exists p, length p = pow2 k /\ (forall i, i < pow2 k -> val (nth i (fp_last pf) e_ZERO) = peval p (kpow (kroot k) i)) /\
    forall i, (if last steps b0 <? b0 - md then 0 else pow2 (last steps b0 - (b0 - md))) < i -> nth i p kzero = kzero.
Proof.
  intros Hk HL E. unfold fri_verify in E.
  destruct (length (fp_queries pf) =? length steps); cbn [negb] in E; [|discriminate E].
  destruct (v_challenges perm steps t (fp_queries pf) (fp_last pf)) as [xt| | |] eqn:Ev; try discriminate E. cbn [bind] in E.
  destruct steps as [|b1 rest]; [discriminate E|].
  pose proof (v_challenges_last (b1 :: rest) t (fp_queries pf) (fp_last pf) xt ltac:(discriminate) Ev) as D3.
  match type of E with bind ?e _ = _ => destruct e as [yt| | |]; try discriminate E end. cbn [bind] in E.
  match type of E with bind ?e _ = _ => destruct e as [r| | |] eqn:Es; try discriminate E end. cbn [bind] in E.
  destruct (fst r) eqn:Tr; [|discriminate E]. pose proof (v_steps_bits _ _ _ _ _ _ _ _ _ Es Tr) as Eb. rewrite Eb in E.
  unfold max_deg_of in E. destruct (b0 <? md); [discriminate E|]. cbn [bind] in E.
  set (n := if last (b1 :: rest) b0 <? b0 - md then 0 else pow2 (last (b1 :: rest) b0 - (b0 - md))) in *.
  exists (idft k (map val (fp_last pf))). split; [apply idft_len|].
  assert (Lm : length (map val (fp_last pf)) = pow2 k) by (rewrite map_length; exact HL).
  pose proof (dft_idft k (map val (fp_last pf)) Hk Lm) as Q. split.
  - intros i Hi. pose proof (f_equal (fun l => nth i l kzero) Q) as Qi. cbn beta in Qi. unfold dft in Qi. rewrite nth_map_seq in Qi by exact Hi.
    rewrite Qi. rewrite (nth_indep _ kzero (val e_ZERO)) by lia. symmetry. apply map_nth.
  - intros i Hi.
    assert (C : map val (fp_last pf) = coset kone k (idft k (map val (fp_last pf)))).
    { rewrite <- Q at 1. unfold dft, coset. apply map_ext. intros j. f_equal. ring. }
    apply (proj1 (check_last_ok (fp_last pf) kone k _ n Hk ltac:(apply idft_len) kone_neq C D3)); [exact E|lia].
Qed.
End Whole.

(** ** equality of queries *)
Lemma zip_all_nil {A} (e : A -> A -> bool) l : zip_all e l [] = true.
Proof. destruct l; reflexivity. Qed.
Lemma zip_all_eq {A} (e : A -> A -> bool) l m : length l = length m -> zip_all e l m = true -> Forall2 (fun a b => e a b = true) l m.
Proof.
  revert m. induction l as [|a l IH]; intros [|b m] L H; cbn [length] in L; try lia; [constructor|]. cbn [zip_all] in H.
  apply andb_true_iff in H. constructor; [tauto|]. apply IH; [lia|tauto].
Qed.

Definition same_lengths (a b : query) : Prop :=
  Forall2 (Forall2 (fun x y : opening => Forall2 (fun u v => length u = length v) (snd x) (snd y))) (q_openings a) (q_openings b).
Lemma F2_zip {A} (R : A -> A -> Prop) (e : A -> A -> bool) : (forall a b, R a b -> e a b = true -> a = b) ->
  forall l m, Forall2 R l m -> zip_all e l m = true -> l = m.
Proof.
  intros H. induction 1 as [|a b l m Hab _ IH]; intros Z; [reflexivity|]. cbn [zip_all] in Z. apply andb_true_iff in Z.
  f_equal; [apply H; tauto|apply IH; tauto].
Qed.

Theorem query_eq_same a b : same_lengths a b -> query_eqb a b = true -> a = b.
Proof.
  intros S E. unfold query_eqb in E. apply andb_true_iff in E. destruct E as [E1 E2]. apply list_eqb_eq in E1.
  destruct a as [oa ra], b as [ob rb]. cbn [q_openings q_root] in *. subst rb. f_equal.
  refine (F2_zip _ _ _ oa ob S E2). intros la lb Sl El. refine (F2_zip _ _ _ la lb Sl El).
  intros x y Sx Ex. unfold opening_eqb in Ex. apply andb_true_iff in Ex. destruct Ex as [E1 E3]. apply list_eqb_eq in E1.
  destruct x as [vx px], y as [vy py]. cbn [fst snd] in *. subst vy. f_equal.
  refine (F2_zip _ _ _ px py Sx E3). intros u v L Ez.
  apply (zip_all_eq _ _ _ L) in Ez. clear L. induction Ez as [|c d u v Q _ IH]; [reflexivity|]. apply feqb_eq in Q. congruence.
Qed.
Theorem query_eq_refl a : query_eqb a a = true.
Proof.
  assert (Z : forall A (e : A -> A -> bool), (forall x, e x x = true) -> forall l, zip_all e l l = true).
  { intros A e H l. induction l as [|x l IH]; [reflexivity|]. cbn [zip_all]. rewrite H, IH. reflexivity. }
  unfold query_eqb. rewrite (proj2 (list_eqb_eq _ _) eq_refl). cbn [andb]. apply Z. intros l. apply Z. intros o.
  unfold opening_eqb. rewrite (proj2 (list_eqb_eq _ _) eq_refl). cbn [andb]. apply Z. intros r. apply Z. intros x. apply feqb_eq. reflexivity.
Qed.
Theorem query_eq_empty a : query_eqb a (mkQ [] (q_root a)) = true /\ query_eqb (mkQ [] (q_root a)) a = true.
Proof.
  unfold query_eqb. cbn [q_openings q_root]. rewrite (proj2 (list_eqb_eq _ _) eq_refl). rewrite zip_all_nil. split; reflexivity.
Qed.
Theorem query_eq_path r v mp root : query_eqb (mkQ [[(v, mp)]] root) (mkQ [[(v, mp ++ r)]] root) = true.
Proof.
  unfold query_eqb. cbn [q_openings q_root zip_all]. rewrite (proj2 (list_eqb_eq _ _) eq_refl). cbn [andb].
  unfold opening_eqb. cbn [fst snd]. rewrite (proj2 (list_eqb_eq _ _) eq_refl). cbn [andb].
  rewrite !andb_true_r. induction mp as [|x mp IH]; [reflexivity|]. cbn [zip_all app]. rewrite IH, andb_true_r.
  induction x as [|y x IHx]; [reflexivity|]. cbn [zip_all]. rewrite IHx, andb_true_r. apply feqb_eq. reflexivity.
Qed.

(** ** one fold, prover and verifier *)
Theorem fold_agree (first : bool) pol s B b p shift sinv x :
  b <= B -> B <= 31 -> (first = true -> b = B) -> length p = 2 ^ B ->
  map val pol = coset s B p -> Forall dim3 pol -> s <> kzero -> val shift = s -> kmul s (val sinv) = kone ->
  exists l, fold_layer first pol B b sinv x = Ok l /\ length l = 2 ^ b /\
    forall g, g < 2 ^ b -> exists v opened w,
      nth_error l g = Some v /\
      mapM (fun i => vget pol (i * 2 ^ b + g)) (seq 0 (2 ^ (B - b))) = Ok opened /\
      fold_check opened B g shift x = Ok w /\ e__eq w v = true /\
      val v = peval (kfold (2 ^ (B - b)) (2 ^ b) (val x) p) (kmul (kpow s (2 ^ (B - b))) (kpow (kroot b) g)).
Proof.
  intros Hb HB Hf Hp HV H3 Hs Hsh Hsi.
  destruct (fold_layer_ok first pol s B b p sinv x Hb HB Hf HV Hp H3 Hsi) as [l [E [D V]]]. exists l. split; [exact E|].
  assert (L : length l = 2 ^ b) by (rewrite <- (map_length val), V, coset_len; reflexivity). split; [exact L|].
  intros g Hg. assert (HL : length pol = 2 ^ B) by (rewrite <- (map_length val), HV, coset_len; reflexivity).
  pose proof (group_grp pol B b g Hb HL Hg) as G.
  destruct (fold_check_ok pol s B b p g _ shift x Hb HB HV Hp Hg Hsh Hs G H3) as [w [Ew [Dw Vw]]].
  pose proof (nth_coset (kpow s (2 ^ (B - b))) b (kfold (2 ^ (B - b)) (2 ^ b) (val x) p) g Hg) as N. rewrite <- V, nth_error_map in N.
  destruct (nth_error l g) as [v|] eqn:Ev; [|discriminate N]. cbn [option_map] in N.
  assert (Vv : val v = peval (kfold (2 ^ (B - b)) (2 ^ b) (val x) p) (kmul (kpow s (2 ^ (B - b))) (kpow (kroot b) g))) by congruence.
  exists v, (grp pol (2 ^ b) (2 ^ (B - b)) g), w. split; [reflexivity|]. split; [exact G|]. split; [exact Ew|]. split; [|exact Vv].
  rewrite Forall_forall in D. pose proof (D v (nth_error_In _ _ Ev)) as Dv. unfold dim3 in Dv, Dw.
  apply e_eqs; [intros F; congruence|intros F; congruence|]. congruence.
Qed.

(* what folding means: for p = sum_j X^j p_j(X^R) the folded polynomial is sum_j x^j p_j *)
Theorem kfold_spec R M p x : length p = M * R ->
  (forall y, peval p y = ksum R (fun j => kmul (kpow y j) (part R M p j (kpow y R)))) /\
  (forall z, peval (kfold R M x p) z = ksum R (fun j => kmul (kpow x j) (part R M p j z))).
Proof. intros H. split; intros y; [apply peval_parts; exact H|apply kfold_eval]. Qed.
