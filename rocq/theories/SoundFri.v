(* What an accepted FRI proof consists of. *)
From Coq Require Import Ring Field Arith.
From Verif Require Import Base GlModel FrField F3gModel Cubic F3gProof ListAux PolyModel Roots PolyProof FftProof FftTop HashModel FriModel FriMath StarkMath.
From Verif Require FriProof.
Lemma ok_inj {A} (a b : A) : Ok a = Ok b -> a = b. Proof. intros H. now injection H. Qed.
Lemma bindE {A B} (x : A) (f : A -> res B) : bind (Ok x) f = f x. Proof. reflexivity. Qed.
Open Scope nat_scope.
Open Scope list_scope.
Open Scope res_scope.
Add Field K_field_sfri : K_field.

(* the values g lie on a polynomial of degree below their number, at the points s w^y z^i with z of that order;
   at x it is v *)
Definition folds (B : nat) (s : K) (y : nat) (x : K) (g : list K) (v : K) : Prop :=
  exists k P, k <= 31 /\ length g = 2 ^ k /\ length P = 2 ^ k /\
    (forall i, i < 2 ^ k -> nth i g kzero = peval P (kmul (kmul s (kpow (kroot B) y)) (kpow (kroot k) i))) /\ peval P x = v.
(* the extension elements in a row of words *)
Definition kwords (g : list K) : list Fr := concat (map (fun a => [k0 a; k1 a; k2 a]) g).
Definition word_at (row : list Fr) (i : nat) (a : K) : Prop :=
  nth_error row (i * 3) = Some (k0 a) /\ nth_error row (i * 3 + 1) = Some (k1 a) /\ nth_error row (i * 3 + 2) = Some (k2 a).

Section Layers.
  Variable perm : list Fr -> list Fr -> list Fr.
  (* what opening o of the first layer at y stands for *)
  Variable base : list opening -> nat -> list K -> Prop.
  (* an opening of a later layer: a row of group g under the root *)
  Definition opens (root : list Fr) (o : list opening) (y : nat) (g : list K) : Prop :=
    exists path rest, o = (kwords g, path) :: rest /\ verify_group_proof perm root path y (kwords g) = Ok true.
  (* the value v is in the opening of query i in the next layer, or in the last layer *)
  Definition next_ok (next : option (query * nat)) (last : list F3G) (i y : nat) (v : K) : Prop :=
    match next with
    | Some (q, b2) => exists row path rest, nth_error (q_openings q) i = Some ((row, path) :: rest) /\ word_at row (y / 2 ^ b2) v
    | None => exists a, nth_error last y = Some a /\ val a = v
    end.
  Fixpoint layers (first : bool) (steps : list nat) (qs : list query) (xs : list F3G) (ys : list nat) (last : list F3G) (B : nat) (s : K) : Prop :=
    match steps, qs, xs with
    | [], _, _ => True
    | b :: rest, q :: qs', x :: xs' =>
        b <= B /\
        (forall i y, nth_error ys i = Some y -> exists o g v, nth_error (q_openings q) i = Some o /\
           (if first then base o y g else opens (q_root q) o y g) /\ folds B s y (val x) g v /\
           next_ok (match rest, qs' with b2 :: _, q2 :: _ => Some (q2, b2) | _, _ => None end) last i y v) /\
        layers false rest qs' xs' (match rest with [] => ys | b2 :: _ => map (fun y => y mod 2 ^ b2) ys end) last b (kpow s (2 ^ (B - b)))
    | _, _, _ => False
    end.
End Layers.

Lemma ifft_length (l c : list F3G) : ifft (F := opsE) l = Ok c -> exists k, k <= 31 /\ length l = 2 ^ k.
Proof.
  unfold ifft. intros H. apply bind_ok in H. destruct H as [q [H1 H2]]. unfold fft in H1. destruct l as [|a [|b l]].
  - apply ok_inj in H1. subst q. discriminate H2.
  - exists 0. split; [lia | reflexivity].
  - cbv zeta in H1. set (bits := Z.to_nat (log2_any (Z.of_nat (@length F3G (a :: b :: l)) - 1) + 1)) in H1.
    change (car opsE) with F3G in H1. fold bits in H1.
    destruct (32 <=? bits) eqn:E1; [discriminate H1|]. apply Nat.leb_gt in E1.
    destruct (Z.of_nat (@length F3G (a :: b :: l)) =? 2 ^ Z.of_nat bits)%Z eqn:E2; [|discriminate H1]. apply Z.eqb_eq in E2.
    exists bits. split; [lia|]. apply Nat2Z.inj. rewrite E2. rewrite Nat2Z.inj_pow. reflexivity.
Qed.
Lemma ifft_wf (l c : list F3G) : ifft (F := opsE) l = Ok c -> Forall wf (c : list F3G) /\ (c : list F3G) <> [].
Proof.
  unfold ifft. intros H. apply bind_ok in H. destruct H as [q [_ H2]]. destruct q as [|q0 rest]; [discriminate H2|]. apply ok_inj in H2. subst c.
  split; [|discriminate]. constructor; [apply wf_mul|]. apply Forall_forall. intros z Hz. apply in_map_iff in Hz. destruct Hz as [w [<- _]]. apply wf_mul.
Qed.
Lemma eval_wf (l : list F3G) x : Forall wf l -> wf (eval_pol (F := opsE) l x).
Proof.
  intros H. unfold eval_pol. change (car opsE) with F3G. destruct (rev l) as [|z r] eqn:E; [intros _; split; reflexivity|].
  apply Forall_rev in H. rewrite E in H. inversion H as [|? ? Hz Hr]; subst. clear E H.
  revert z Hz. induction r as [|a r IH]; intros z Hz; cbn [fold_left]; [exact Hz|]. inversion Hr; subst. apply IH; [assumption|]. apply wf_add.
Qed.

Lemma fold_check_folds pg B y shift x v : B <= 31 -> val shift <> kzero -> fold_check pg B y shift x = Ok v -> folds B (val shift) y (val x) (map val pg) (val v) /\ wf v.
Proof.
  intros HB Hs H. unfold fold_check in H. apply bind_ok in H. destruct H as [c [H1 H2]]. rewrite MG_root in H2 by lia. rewrite bindE in H2. cbv zeta in H2. apply ok_inj in H2.
  destruct (ifft_length _ _ H1) as [k [Hk Hl]]. destruct (ifft_E k pg Hk Hl) as [c' [E V]]. rewrite H1 in E. apply ok_inj in E. subst c'.
  split; [|rewrite <- H2; apply eval_wf; exact (proj1 (ifft_wf _ _ H1))].
  set (s := kmul (val shift) (kpow (kroot B) y)).
  assert (Ns : s <> kzero) by (apply k_mul_nz; [exact Hs | apply StarkMath.kpow_nz, kroot_nz; lia]).
  assert (Es : val (e_inv (e_mul shift (e_exp (e_from (root B)) (Z.of_nat y)))) = kinv s).
  { rewrite val_inv, val_mul, val_exp, val_from, Nat2Z.id by lia. reflexivity. }
  assert (V2 : val v = peval (idft k (map val pg)) (kmul (val x) (kinv s))) by (rewrite <- H2, eval_E, V, val_mul, Es; reflexivity).
  exists k, (map (fun j => kmul (kpow (kinv s) j) (nth j (idft k (map val pg)) kzero)) (seq 0 (2 ^ k))).
  assert (Ev : forall z, peval (map (fun j => kmul (kpow (kinv s) j) (nth j (idft k (map val pg)) kzero)) (seq 0 (2 ^ k))) z = peval (idft k (map val pg)) (kmul z (kinv s))).
  { intros z. rewrite !peval_sum, map_length, seq_length, idft_len.
    apply ksum_ext. intros j Hj. cbv beta. rewrite nth_map_seq by exact Hj. rewrite kpow_prod. ring. }
  split; [exact Hk|]. split; [rewrite map_length; exact Hl|]. split; [rewrite map_length, seq_length; reflexivity|]. split.
  - intros i Hi. fold s. rewrite Ev. transitivity (peval (idft k (map val pg)) (kpow (kroot k) i)); [|f_equal; field; exact Ns].
    pose proof (dft_idft k (map val pg) Hk ltac:(rewrite map_length; exact Hl)) as D. apply (f_equal (fun l => nth i l kzero)) in D. unfold dft in D. rewrite nth_map_seq in D by exact Hi. symmetry. exact D.
  - rewrite Ev. symmetry. exact V2.
Qed.

Lemma split3_kwords : forall n row l, length row <= n -> FriModel.split3 row = Ok l -> row = kwords (map val l).
Proof.
  induction n as [|n IH]; intros row l Hn H; (destruct row as [|a [|b [|c r]]]; cbn [FriModel.split3] in H; try discriminate H; [apply ok_inj in H; subst l; reflexivity|]); [cbn in Hn; lia|].
  apply bind_ok in H. destruct H as [l' [H1 H2]]. apply ok_inj in H2. subst l. rewrite (IH r l') at 1; [reflexivity | cbn in Hn; lia | exact H1].
Qed.

Section Accept.
  Variable perm : list Fr -> list Fr -> list Fr.
  Variable check_query : list opening -> nat -> res (list F3G).
  Definition answered (o : list opening) (y : nat) (g : list K) : Prop := exists l, check_query o y = Ok l /\ l <> [] /\ g = map val l.

  Lemma v_step_layers (first : bool) q next last B shift x : B <= 31 -> val shift <> kzero -> Forall wf last -> forall ys i0,
    v_step perm check_query first q next last B shift x i0 ys = Ok true ->
    forall i y, nth_error ys i = Some y -> exists o g v, nth_error (q_openings q) (i0 + i) = Some o /\
      (if first then answered o y g else opens perm (q_root q) o y g) /\ folds B (val shift) y (val x) g v /\ next_ok next last (i0 + i) y v.
  Proof.
    intros HB Hs Hl. induction ys as [|y0 ys IH]; intros i0 H i y Hy; [destruct i; discriminate Hy|].
    cbn [v_step] in H. apply bind_ok in H. destruct H as [o [Ho H]]. apply vget_inv in Ho. apply bind_ok in H. destruct H as [pg [Hpg H]].
    assert (S0 : exists g v, (if first then answered o y0 g else opens perm (q_root q) o y0 g) /\ folds B (val shift) y0 (val x) g v /\ next_ok next last i0 y0 v /\
      v_step perm check_query first q next last B shift x (S i0) ys = Ok true).
    { assert (H' : (do ev <- fold_check pg B y0 shift x; do want <- next_value next last i0 y0;
        if e__eq ev want then v_step perm check_query first q next last B shift x (S i0) ys else Ok false) = Ok true /\ (first = true -> pg <> [])).
      { destruct first; [destruct pg as [|p0 pg]; [discriminate H|]; split; [exact H | intros _ C; discriminate C] | split; [exact H | intros C; discriminate C]]. }
      destruct H' as [H' Hne]. clear H. apply bind_ok in H'. destruct H' as [ev [Ef H]]. apply bind_ok in H. destruct H as [want [Ew H]].
      destruct (e__eq ev want) eqn:Eq; [|discriminate H]. destruct (fold_check_folds _ _ _ _ _ _ HB Hs Ef) as [F W].
      exists (map val pg), (val ev). split; [|split; [exact F|split; [|exact H]]].
      - destruct first; [exists pg; split; [exact Hpg | split; [exact (Hne eq_refl) | reflexivity]]|].
        unfold check_opening in Hpg. apply bind_ok in Hpg. destruct Hpg as [q0 [E0 E1]]. apply vget_inv in E0. apply bind_ok in E1. destruct E1 as [ok [E1 E2]]. destruct ok; [|discriminate E2].
        destruct o as [|[row path] rest]; [discriminate E0|]. cbn [nth_error] in E0. injection E0 as <-. cbn [fst snd] in E1, E2.
        exists path, rest. rewrite <- (split3_kwords _ _ _ (le_n _) E2). split; [reflexivity | exact E1].
      - unfold next_value in Ew. unfold next_ok. destruct next as [[q2 b2]|].
        + apply bind_ok in Ew. destruct Ew as [o2 [E2 Ew]]. apply vget_inv in E2. apply bind_ok in Ew. destruct Ew as [o0 [E3 Ew]]. apply vget_inv in E3.
          destruct o2 as [|[row path] rest]; [discriminate E3|]. cbn [nth_error] in E3. injection E3 as <-. cbn [fst] in Ew. exists row, path, rest. split; [exact E2|].
          unfold get3 in Ew. apply bind_ok in Ew. destruct Ew as [a [A1 Ew]]. apply bind_ok in Ew. destruct Ew as [b [A2 Ew]]. apply bind_ok in Ew. destruct Ew as [c [A3 Ew]]. apply ok_inj in Ew. subst want.
          apply e_eqs in Eq; [|exact W | intros C; discriminate C]. rewrite Eq. apply vget_inv in A1, A2, A3. split; [exact A1|]. split; [exact A2 | exact A3].
        + apply vget_inv in Ew. exists want. split; [exact Ew|]. symmetry. apply e_eqs; [exact W | | exact Eq]. apply (proj1 (Forall_forall _ _) Hl). eapply nth_error_In, Ew. }
    destruct S0 as [g [v [S1 [S2 [S3 S4]]]]]. destruct i as [|i].
    - cbn [nth_error] in Hy. injection Hy as <-. rewrite Nat.add_0_r. exists o, g, v. split; [exact Ho|]. split; [exact S1|]. split; [exact S2 | exact S3].
    - cbn [nth_error] in Hy. replace (i0 + S i) with (S i0 + i) by lia. exact (IH _ S4 i y Hy).
  Qed.

  Lemma v_steps_layers steps : forall (first : bool) qs xs ys last B shift r, B <= 31 -> val shift <> kzero -> Forall wf last ->
    v_steps perm check_query first steps qs xs ys last B shift = Ok (true, r) -> layers perm answered first steps qs xs ys last B (val shift).
  Proof.
    induction steps as [|b rest IH]; intros first qs xs ys last B shift r HB Hs Hl H; [exact Logic.I|].
    cbn [v_steps layers] in *. destruct qs as [|q qs]; [discriminate H|]. destruct xs as [|x xs]; [discriminate H|].
    destruct (Nat.ltb_spec B b) as [C|C]; [discriminate H|].
    apply bind_ok in H. destruct H as [next [Hn H]]. apply bind_ok in H. destruct H as [ok [Hok H]]. destruct ok; [|apply ok_inj in H; discriminate H].
    assert (En : next = match rest, qs with b2 :: _, q2 :: _ => Some (q2, b2) | _, _ => None end).
    { destruct rest as [|b2 rest]; [apply ok_inj in Hn; now symmetry|]. destruct qs as [|q2 qs]; [discriminate Hn|]. cbn in Hn. injection Hn as <-. reflexivity. }
    split; [exact C|]. split.
    - intros i y Hy. rewrite <- En. exact (v_step_layers first q next last B shift x HB Hs Hl ys 0 Hok i y Hy).
    - rewrite <- FriProof.esqn_val. apply (IH false _ _ _ _ _ _ r); [lia | rewrite FriProof.esqn_val; apply StarkMath.kpow_nz, Hs | exact Hl|]. exact H.
  Qed.

  Theorem fri_accepts b0 md nq steps t pf : b0 <= 31 -> fri_verify perm check_query b0 md nq steps t pf = Ok true ->
    exists b rest xs t1 zs t2, steps = b :: rest /\ length (fp_queries pf) = length steps /\
      v_challenges perm steps t (fp_queries pf) (fp_last pf) = Ok (xs, t1) /\ get_permutations perm t1 nq b = Ok (zs, t2) /\
      layers perm answered true steps (fp_queries pf) xs (map Z.to_nat zs) (fp_last pf) b0 FriProof.K_shift /\
      exists k P, k <= 31 /\ length (fp_last pf) = 2 ^ k /\ length P = 2 ^ k /\ (forall i, i < 2 ^ k -> val (nth i (fp_last pf) e_ZERO) = peval P (kpow (kroot k) i)) /\
        forall i, (if last steps b0 <? b0 - md then 0 else 2 ^ (last steps b0 - (b0 - md))) < i -> nth i P kzero = kzero.
  Proof.
    intros Hb E. pose proof E as E0. unfold fri_verify in E. destruct (Nat.eqb_spec (length (fp_queries pf)) (length steps)) as [El|]; cbn [negb] in E; [|discriminate E].
    apply bind_ok in E. destruct E as [[xs t1] [Ex E]]. cbn [fst snd] in E. destruct steps as [|b rest]; [discriminate E|].
    apply bind_ok in E. destruct E as [[zs t2] [Ey E]]. cbn [fst snd] in E. cbv zeta in E. apply bind_ok in E. destruct E as [[ok bl] [Es E]]. cbn [fst snd] in E. destruct ok; [|discriminate E].
    exists b, rest, xs, t1, zs, t2. split; [reflexivity|]. split; [exact El|]. split; [exact Ex|]. split; [exact Ey|].
    assert (Wl : Forall wf (fp_last pf)).
    { eapply Forall_impl; [|exact (FriProof.v_challenges_last perm (b :: rest) _ _ _ _ ltac:(discriminate) Ex)]. intros a Ha C. rewrite Ha in C. discriminate C. }
    split.
    - change FriProof.K_shift with (val (e_from SHIFT)). apply (v_steps_layers _ _ _ _ _ _ _ _ bl Hb); [exact FriProof.K_shift_nz | exact Wl | exact Es].
    - apply bind_ok in E. destruct E as [md' [_ E]]. unfold check_last in E. apply bind_ok in E. destruct E as [c [Ec _]]. destruct (ifft_length _ _ Ec) as [k [Hk Hlk]].
      destruct (FriProof.accepted_degree perm check_query b0 md nq (b :: rest) t pf k Hk Hlk E0) as [P [A1 [A2 A3]]]. exists k, P.
      split; [exact Hk|]. split; [exact Hlk|]. split; [exact A1|]. split; [exact A2 | exact A3].
  Qed.
End Accept.
