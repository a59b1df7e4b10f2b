(* The custom gates of the compressor: the rows written for one use, and what the identities of the
   rendered PIL program say about them. *)
From Verif Require Import Base GlModel FrField Cubic ListAux PlonkModel CompressorModel CompressorPil PlaceProof SetupProof.
From Coq Require Import Field.
Open Scope nat_scope.
Open Scope res_scope.
Transparent kadd ksub kmul kneg kzero kone.
Add Field FrFPil : Fr_field.
Add Ring KRPil : K_ring.

Definition zeros (l : list Fr) : Prop := Forall (fun v => v = f0) l.

(* three consecutive cells as an element of the cubic extension *)
Definition tup (a : nat -> Fr) (j : nat) : K := mkK (a j) (a (j + 1)) (a (j + 2)).
Definition kscale (c : Fr) (x : K) : K := mkK (fmul c (k0 x)) (fmul c (k1 x)) (fmul c (k2 x)).

Lemma fsub_zero x y : fsub x y = f0 <-> x = y.
Proof. split; intros H; [|subst; ring]. transitivity (fadd (fsub x y) y); [ring|]. rewrite H. ring. Qed.
Lemma one_sub x y : fmul f1 (fsub x y) = f0 <-> x = y.
Proof. rewrite <- (fsub_zero x y). split; intros H; [rewrite <- H; ring|rewrite H; ring]. Qed.
Lemma zeros3 a b c : zeros [a; b; c] <-> a = f0 /\ b = f0 /\ c = f0.
Proof.
  split; [|intros [-> [-> ->]]; repeat constructor]. intros H. inversion H as [|? ? A H1]; subst. inversion H1 as [|? ? B H2]; subst. inversion H2; subst. auto.
Qed.
Lemma zeros_app l m : zeros (l ++ m) <-> zeros l /\ zeros m.
Proof. apply Forall_app. Qed.
Lemma k_eq3 x a b c : x = mkK a b c <-> k0 x = a /\ k1 x = b /\ k2 x = c.
Proof. destruct x. cbn. split; [intros [= -> -> ->]; auto|intros [-> [-> ->]]; reflexivity]. Qed.

(* ---- the identities ---- *)
Lemma fof2 : fof 2 = fadd f1 f1.
Proof. apply fint_inj. vm_compute. reflexivity. Qed.
Lemma pil_cma_ok x y z : pil_cma (k0 x, k1 x, k2 x) (k0 y, k1 y, k2 y) (k0 z, k1 z, k2 z) =
  (k0 (kadd (kmul x y) z), k1 (kadd (kmul x y) z), k2 (kadd (kmul x y) z)).
Proof.
  unfold pil_cma, kadd, kmul. cbn [k0 k1 k2]. rewrite fof2. apply f_equal2; [apply f_equal2|]; ring.
Qed.
Lemma cmuladd_meaning C a : (forall i, i < 9 -> C i = f0) -> C 9 = f1 -> C 10 = f1 ->
  (zeros (pil_cmuladd f1 C a) <-> tup a 9 = kadd (kmul (tup a 0) (tup a 3)) (tup a 6)).
Proof.
  intros HC H9 H10. unfold pil_cmuladd. rewrite H9, H10, !HC by lia. rewrite zeros3. rewrite fof2.
  unfold tup, kadd, kmul. cbn [k0 k1 k2 plus]. rewrite k_eq3. cbn [k0 k1 k2].
  assert (E : forall x y z, fmul f1 (fsub (fsub x y) z) = fsub x (fadd y z)) by (intros; ring). rewrite !E, !fsub_zero.
  split; intros [A [B D]]; (split; [rewrite A|split; [rewrite B|rewrite D]]); ring.
Qed.
(* a0 + a3 z + a6 z^2 + a9 z^3 + a'0 z^4 at z = a'3 is a'6 *)
Definition horner4 (c0 c1 c2 c3 c4 z : K) : K :=
  kadd c0 (kmul z (kadd c1 (kmul z (kadd c2 (kmul z (kadd c3 (kmul z c4))))))).
Lemma evpol_meaning a a' :
  zeros (pil_evpol f1 a a') <-> tup a' 6 = horner4 (tup a 0) (tup a 3) (tup a 6) (tup a 9) (tup a' 0) (tup a' 3).
Proof.
  unfold pil_evpol. change (tri a' 0) with (k0 (tup a' 0), k1 (tup a' 0), k2 (tup a' 0)). change (tri a' 3) with (k0 (tup a' 3), k1 (tup a' 3), k2 (tup a' 3)).
  change (tri a 0) with (k0 (tup a 0), k1 (tup a 0), k2 (tup a 0)). change (tri a 3) with (k0 (tup a 3), k1 (tup a 3), k2 (tup a 3)).
  change (tri a 6) with (k0 (tup a 6), k1 (tup a 6), k2 (tup a 6)). change (tri a 9) with (k0 (tup a 9), k1 (tup a 9), k2 (tup a 9)).
  rewrite !pil_cma_ok. rewrite zeros3, !one_sub.
  assert (E : kadd (kmul (kadd (kmul (kadd (kmul (kadd (kmul (tup a' 0) (tup a' 3)) (tup a 9)) (tup a' 3)) (tup a 6)) (tup a' 3)) (tup a 3)) (tup a' 3)) (tup a 0)
    = horner4 (tup a 0) (tup a 3) (tup a 6) (tup a 9) (tup a' 0) (tup a' 3)) by (unfold horner4; ring).
  rewrite E. set (R := horner4 _ _ _ _ _ _). clearbody R. destruct R as [r0 r1 r2]. unfold tup at 1. cbn [k0 k1 k2 plus]. rewrite k_eq3. cbn [k0 k1 k2]. tauto.
Qed.

Lemma zeros12 a0 a1 a2 a3 a4 a5 a6 a7 a8 a9 a10 a11 : zeros [a0; a1; a2; a3; a4; a5; a6; a7; a8; a9; a10; a11] <->
  (zeros [a0; a1; a2] /\ zeros [a3; a4; a5]) /\ (zeros [a6; a7; a8] /\ zeros [a9; a10; a11]).
Proof. rewrite <- !zeros_app. reflexivity. Qed.
Ltac comps := split; intros [?A [?B ?D]]; (split; [|split]).
Lemma three_meaning x y z p q s X : k0 X = p -> k1 X = q -> k2 X = s ->
  (zeros [fmul f1 (fsub x p); fmul f1 (fsub y q); fmul f1 (fsub z s)] <-> mkK x y z = X).
Proof.
  intros <- <- <-. rewrite zeros3, !one_sub. destruct X as [u v w]. cbn [k0 k1 k2]. split; [intros [-> [-> ->]]; reflexivity|intros [= -> -> ->]; auto].
Qed.
(* with C0 = s, C1 = s w^2, C2 = s w, C3 = s w^3, C4 = s w i, C5 = s w^3 i and C6 = C7 = C8 = 0 *)
Lemma fft4_meaning C a a' s w i : C 0 = s -> C 1 = fmul s (fmul w w) -> C 2 = fmul s w -> C 3 = fmul (fmul s w) (fmul w w) -> C 4 = fmul (fmul s w) i ->
  C 5 = fmul (fmul (fmul s w) (fmul w w)) i -> C 6 = f0 -> C 7 = f0 -> C 8 = f0 -> fmul i i = fneg f1 ->
  (zeros (pil_fft4 f1 C a a') <->
   forall k, k < 4 -> tup a' (3 * k) =
     let y := fmul w (fpow i k) in
     kscale s (kadd (kadd (tup a 0) (kscale y (tup a 6))) (kadd (kscale (fpow y 2) (tup a 3)) (kscale (fpow y 3) (tup a 9))))).
Proof.
  intros H0 H1 H2 H3 H4 H5 H6 H7 H8 Hi. unfold pil_fft4. rewrite H0, H1, H2, H3, H4, H5, H6, H7, H8. clear H0 H1 H2 H3 H4 H5 H6 H7 H8.
  rewrite zeros12. cbv zeta.
  assert (S1 : forall x, fmul i (fmul i x) = fneg x). { intros x. transitivity (fmul (fmul i i) x); [ring|]. rewrite Hi. ring. }
  cbn [plus].
  rewrite (three_meaning _ _ _ _ _ _ (kscale s (kadd (kadd (tup a 0) (kscale (fmul w (fpow i 0)) (tup a 6))) (kadd (kscale (fpow (fmul w (fpow i 0)) 2) (tup a 3)) (kscale (fpow (fmul w (fpow i 0)) 3) (tup a 9))))));
    [|unfold kscale, kadd, tup; cbn [k0 k1 k2 plus fpow]; ring ..].
  rewrite (three_meaning _ _ _ _ _ _ (kscale s (kadd (kadd (tup a 0) (kscale (fmul w (fpow i 1)) (tup a 6))) (kadd (kscale (fpow (fmul w (fpow i 1)) 2) (tup a 3)) (kscale (fpow (fmul w (fpow i 1)) 3) (tup a 9))))));
    [|unfold kscale, kadd, tup; cbn [k0 k1 k2 plus fpow]; ring [Hi] ..].
  rewrite (three_meaning _ _ _ _ _ _ (kscale s (kadd (kadd (tup a 0) (kscale (fmul w (fpow i 2)) (tup a 6))) (kadd (kscale (fpow (fmul w (fpow i 2)) 2) (tup a 3)) (kscale (fpow (fmul w (fpow i 2)) 3) (tup a 9))))));
    [|unfold kscale, kadd, tup; cbn [k0 k1 k2 plus fpow]; ring [Hi] ..].
  rewrite (three_meaning _ _ _ _ _ _ (kscale s (kadd (kadd (tup a 0) (kscale (fmul w (fpow i 3)) (tup a 6))) (kadd (kscale (fpow (fmul w (fpow i 3)) 2) (tup a 3)) (kscale (fpow (fmul w (fpow i 3)) 3) (tup a 9))))));
    [|unfold kscale, kadd, tup; cbn [k0 k1 k2 plus fpow]; ring [Hi] ..].
  split.
  - intros [[A B] [D E]] k Hk. destruct k as [|[|[|[|k]]]]; [exact A|exact B|exact D|exact E|lia].
  - intros H. split; split; [exact (H 0 ltac:(lia))|exact (H 1 ltac:(lia))|exact (H 2 ltac:(lia))|exact (H 3 ltac:(lia))].
Qed.
(* with C6 = s, C7 = s w, C8 = s w i and C0..C5 = 0 *)
Lemma fft2_meaning C a a' s w i : (forall k, k < 6 -> C k = f0) -> C 6 = s -> C 7 = fmul s w -> C 8 = fmul (fmul s w) i ->
  (zeros (pil_fft4 f1 C a a') <->
   tup a' 0 = kscale s (kadd (tup a 0) (kscale w (tup a 3))) /\ tup a' 3 = kscale s (ksub (tup a 0) (kscale w (tup a 3))) /\
   tup a' 6 = kscale s (kadd (tup a 6) (kscale (fmul w i) (tup a 9))) /\ tup a' 9 = kscale s (ksub (tup a 6) (kscale (fmul w i) (tup a 9)))).
Proof.
  intros HC H6 H7 H8. unfold pil_fft4. rewrite H6, H7, H8, !HC by lia. rewrite zeros12. cbn [plus].
  rewrite (three_meaning _ _ _ _ _ _ (kscale s (kadd (tup a 0) (kscale w (tup a 3))))); [|unfold kscale, kadd, tup; cbn [k0 k1 k2 plus]; ring ..].
  rewrite (three_meaning _ _ _ _ _ _ (kscale s (ksub (tup a 0) (kscale w (tup a 3))))); [|unfold kscale, ksub, tup; cbn [k0 k1 k2 plus]; ring ..].
  rewrite (three_meaning _ _ _ _ _ _ (kscale s (kadd (tup a 6) (kscale (fmul w i) (tup a 9))))); [|unfold kscale, kadd, tup; cbn [k0 k1 k2 plus]; ring ..].
  rewrite (three_meaning _ _ _ _ _ _ (kscale s (ksub (tup a 6) (kscale (fmul w i) (tup a 9))))); [|unfold kscale, ksub, tup; cbn [k0 k1 k2 plus]; ring ..].
  unfold tup. cbn [plus]. split; [intros [[A B] [D E]]; exact (conj A (conj B (conj D E)))|intros [A [B [D E]]]; exact (conj (conj A B) (conj D E))].
Qed.

(* one round: add the constants, raise to the seventh power (all twelve, or the first only), multiply
   by the matrix *)
Definition dot (row : list Z) (x : list Fr) : Fr := fold_right fadd f0 (map (fun p => fmul (fof (fst p)) (snd p)) (combine row x)).
Definition round (partial : bool) (C x : list Fr) : list Fr :=
  let y := map (fun p => fadd (fst p) (snd p)) (combine x C) in
  let z := match y with [] => [] | h :: r => fpow h 7 :: (if partial then r else map (fun v => fpow v 7) r) end in
  map (fun row => dot row z) pil_mds.
Definition row12 (a : nat -> Fr) : list Fr := map a (seq 0 12).

Lemma zeros_one (l : list (Fr * Fr)) : zeros (map (fun p => fmul f1 (fsub (fst p) (snd p))) l) <-> map fst l = map snd l.
Proof.
  unfold zeros. induction l as [|[x y] l IH]; cbn [map fst snd]; [split; constructor|]. split.
  - intros H. inversion H as [|? ? A B]; subst. apply (proj1 (one_sub _ _)) in A. apply IH in B. rewrite A, B. reflexivity.
  - intros [= -> E]. constructor; [apply one_sub; reflexivity|apply IH, E].
Qed.
Lemma poseidon_meaning (part : bool) C a a' :
  zeros (pil_poseidon f1 (if part then f1 else f0) C a a') <-> row12 a' = round part (row12 C) (row12 a).
Proof.
  unfold pil_poseidon.
  set (sb := pil_sbox (if part then f1 else f0) C a).
  assert (SB : forall i, sb i = if (i =? 0) || negb part then fpow (fadd (a i) (C i)) 7 else fadd (a i) (C i)).
  { intros i. unfold sb, pil_sbox. cbn [fpow]. destruct (i =? 0); cbn [orb]; [ring|]. destruct part; cbn [negb]; ring. }
  clearbody sb.
  transitivity (zeros (map (fun p => fmul f1 (fsub (fst p) (snd p))) (combine (row12 a') (map (fun row => pil_lin row 0 sb) pil_mds)))).
  - unfold row12, pil_mds. cbn [combine seq map fst snd]. tauto.
  - rewrite zeros_one.
    assert (E : map (fun row => pil_lin row 0 sb) pil_mds = round part (row12 C) (row12 a)).
    { unfold round, row12. cbn [seq map combine fst snd]. unfold pil_mds. cbn [map].
      assert (L : forall m0 m1 m2 m3 m4 m5 m6 m7 m8 m9 m10 m11,
        pil_lin [m0; m1; m2; m3; m4; m5; m6; m7; m8; m9; m10; m11] 0 sb = dot [m0; m1; m2; m3; m4; m5; m6; m7; m8; m9; m10; m11] (map sb (seq 0 12))).
      { intros. cbn [pil_lin seq map]. unfold dot. cbn [combine map fst snd fold_right]. ring. }
      rewrite !L.
      assert (V : map sb (seq 0 12) = fpow (fadd (a 0) (C 0)) 7 :: (if part then map (fun i => fadd (a i) (C i)) (seq 1 11) else map (fun v => fpow v 7) (map (fun i => fadd (a i) (C i)) (seq 1 11)))).
      { change (seq 0 12) with (0 :: seq 1 11). cbn [map]. rewrite SB. cbn [Nat.eqb orb]. apply f_equal. destruct part; [|rewrite map_map]; apply map_ext_in; intros i Hi; rewrite SB; apply in_seq in Hi; destruct (Nat.eqb_spec i 0); try lia; reflexivity. }
      rewrite V. destruct part; reflexivity. }
    rewrite E. clear E.
    assert (L1 : length (row12 a') = length (round part (row12 C) (row12 a))) by (unfold row12, round; rewrite !map_length; reflexivity).
    assert (M1 : forall (x y : list Fr), length x = length y -> map fst (combine x y) = x /\ map snd (combine x y) = y).
    { induction x as [|u x IH]; intros [|v y] Hl; try discriminate; [auto|]. cbn [combine map fst snd]. injection Hl as Hl. destruct (IH _ Hl) as [-> ->]. auto. }
    destruct (M1 _ _ L1) as [-> ->]. reflexivity.
Qed.

(* ---- the rows written ---- *)
Lemma set_s_eq d c q v t t' : set_s d c q v t = Ok t' -> c < 12 /\ q < n_used d /\ cm t' = cm t /\ sel t' = sel t /\ sm t' = gset (sm t) c q v.
Proof. unfold set_s. destruct (Nat.ltb_spec c 12); destruct (Nat.ltb_spec q (n_used d)); cbn [andb]; try discriminate. intros [= <-]. auto. Qed.
Lemma set_c_eq d c q v t t' : set_c d c q v t = Ok t' -> c < 12 /\ q < n_rows d /\ sm t' = sm t /\ sel t' = sel t /\ cm t' = gset (cm t) c q v.
Proof. unfold set_c. destruct (Nat.ltb_spec c 12); destruct (Nat.ltb_spec q (n_rows d)); cbn [andb]; try discriminate. intros [= <-]. auto. Qed.
Lemma gset_same {A} (g : grid A) c q v : gset g c q v c q = v.
Proof. unfold gset. rewrite !Nat.eqb_refl. reflexivity. Qed.
Lemma gset_row {A} (g : grid A) c q v c' q' : q' <> q -> gset g c q v c' q' = g c' q'.
Proof. unfold gset. intros H. destruct (Nat.eqb_spec q' q); [contradiction|]. rewrite andb_false_r. reflexivity. Qed.
Lemma gset_col {A} (g : grid A) c q v c' q' : c' <> c -> gset g c q v c' q' = g c' q'.
Proof. unfold gset. intros H. destruct (Nat.eqb_spec c' c); [contradiction|]. reflexivity. Qed.

(* a loop writing, for each column j of l, signal [sv j] in row q *)
Lemma sig_loop q (P : tables -> nat -> res tables) (sv : nat -> nat -> Prop) l :
  (forall t j t', In j l -> P t j = Ok t' -> sel t' = sel t /\ exists v, sv j v /\ sm t' = gset (sm t) j q v) ->
  NoDup l -> forall t t', foldM P l t = Ok t' ->
  sel t' = sel t /\ (forall j, In j l -> sv j (sm t' j q)) /\ (forall c, ~ In c l -> sm t' c q = sm t c q) /\ (forall c q', q' <> q -> sm t' c q' = sm t c q').
Proof.
  induction l as [|x l IH]; intros H ND t t' E; cbn [foldM] in E; [injection E as <-; repeat split; auto; intros j []|].
  inversion ND as [|? ? N1 N2]; subst. bi E. destruct (H _ _ _ (or_introl eq_refl) E0) as [A [v [V S]]].
  apply IH in E; [|intros; eapply H; [right|]; eassumption|exact N2]. destruct E as [B [C [D F]]]. split; [congruence|]. split; [|split].
  - intros j [<-|Hj]; [|apply C, Hj]. rewrite D by exact N1. rewrite S, gset_same. exact V.
  - intros c Hc. rewrite D by (intros X; apply Hc; right; exact X). rewrite S. apply gset_col. intros ->. apply Hc. left. reflexivity.
  - intros c q' Hq. rewrite F by exact Hq. rewrite S. apply gset_row, Hq.
Qed.

(* CMulAdd: row r carries the twelve signals, and its identities say out = a * b + c in the cubic
   extension *)
Lemma put_cmuladd_ok d r sg t t' : put_cmuladd d r sg t = Ok t' -> r < n_used d ->
  (forall j, j < 12 -> nth_error sg j = Some (sm t' j r)) /\
  (forall n, sel t' n r = match n with CMULADD => f1 | _ => f0 end) /\
  (forall a, zeros (pil_cmuladd (sel t' CMULADD r) (fun c => cm t' c r) a) <-> tup a 9 = kadd (kmul (tup a 0) (tup a 3)) (tup a 6)).
Proof.
  intros H Hr. unfold put_cmuladd in H. bi H. bi H. destruct (Nat.ltb_spec r (n_used d)); [|lia].
  apply (sig_loop r _ (fun j v => vget sg j = Ok v)) in E; [| |apply seq_NoDup].
  2:{ intros t1 j t2 _ H1. bi H1. apply set_s_eq in H1. destruct H1 as [_ [_ [_ [B C]]]]. split; [exact B|eauto]. }
  destruct E as [_ [SG _]]. apply set_sels_inv in E0. destruct E0 as [_ [S1 [_ SL]]]. apply set_cs_inv in H. destruct H as [_ [S2 [SL2 CC]]].
  assert (SE : forall n, sel t' n r = match n with CMULADD => f1 | _ => f0 end).
  { intros n. rewrite SL2, SL, Nat.eqb_refl. destruct n; reflexivity. }
  split; [|split; [exact SE|]].
  - intros j Hj. rewrite S2, S1. specialize (SG j). rewrite in_seq in SG. specialize (SG ltac:(lia)). unfold vget in SG. destruct (nth_error sg j); [injection SG as ->; reflexivity|discriminate].
  - intros a. rewrite SE. apply cmuladd_meaning.
    + intros i Hi. rewrite CC, Nat.eqb_refl. do 9 (destruct i as [|i]; [reflexivity|]). lia.
    + rewrite CC, Nat.eqb_refl. reflexivity.
    + rewrite CC, Nat.eqb_refl. reflexivity.
Qed.

Lemma vget_nth {A} (l : list A) j v : vget l j = Ok v -> nth_error l j = Some v.
Proof. unfold vget. destruct (nth_error l j); [intros [= ->]; reflexivity|discriminate]. Qed.

(* EvPol4: rows r and r+1 carry the 21 signals; the value is a0 + a1 z + a2 z^2 + a3 z^3 + a4 z^4 *)
Lemma put_evpol_ok d r sg t t' : put_evpol d r sg t = Ok t' ->
  (forall j, j < 12 -> nth_error sg j = Some (sm t' j r)) /\ (forall j, j < 9 -> nth_error sg (12 + j) = Some (sm t' j (r + 1))) /\
  (forall n, sel t' n r = match n with EVPOL4 => f1 | _ => f0 end) /\ (forall n, sel t' n (r + 1) = f0) /\
  (forall a a', zeros (pil_evpol (sel t' EVPOL4 r) a a') <-> tup a' 6 = horner4 (tup a 0) (tup a 3) (tup a 6) (tup a 9) (tup a' 0) (tup a' 3)).
Proof.
  intros H. unfold put_evpol in H. bi H. bi H. bi H. bi H.
  apply (sig_loop r _ (fun j v => vget sg j = Ok v)) in E; [| |apply seq_NoDup].
  2:{ intros t1 j t2 _ H1. bi H1. bi H1. apply set_s_eq in E4. destruct E4 as [_ [_ [_ [B C]]]]. apply set_c_eq in H1. destruct H1 as [_ [_ [D [F _]]]]. split; [congruence|]. eexists. split; [eassumption|congruence]. }
  apply (sig_loop (r + 1) _ (fun j v => vget sg (12 + j) = Ok v)) in E0; [| |apply seq_NoDup].
  2:{ intros t1 j t2 _ H1. bi H1. bi H1. apply set_s_eq in E4. destruct E4 as [_ [_ [_ [B C]]]]. apply set_c_eq in H1. destruct H1 as [_ [_ [D [F _]]]]. split; [congruence|]. eexists. split; [eassumption|congruence]. }
  apply (sig_loop (r + 1) _ (fun j v => v = 0)) in E1; [| |apply seq_NoDup].
  2:{ intros t1 j t2 _ H1. bi H1. apply set_s_eq in E3. destruct E3 as [_ [_ [_ [B C]]]]. apply set_c_eq in H1. destruct H1 as [_ [_ [D [F _]]]]. split; [congruence|]. eexists. split; [reflexivity|congruence]. }
  destruct E as [_ [A1 _]]. destruct E0 as [_ [A2 [_ A3]]]. destruct E1 as [_ [_ [A4 A5]]].
  apply set_sels_inv in E2. destruct E2 as [_ [S1 [_ SL]]]. apply set_sels_inv in H. destruct H as [_ [S2 [_ SL2]]].
  assert (SE : forall n, sel t' n r = match n with EVPOL4 => f1 | _ => f0 end).
  { intros n. rewrite SL2. destruct (Nat.eqb_spec r (r + 1)); [lia|]. rewrite SL, Nat.eqb_refl. destruct n; reflexivity. }
  split; [|split; [|split; [exact SE|split]]].
  - intros j Hj. apply vget_nth. rewrite S2, S1, A5, A3 by lia. apply A1, in_seq. lia.
  - intros j Hj. apply vget_nth. rewrite S2, S1, A4 by (rewrite in_seq; lia). apply A2, in_seq. lia.
  - intros n. rewrite SL2, Nat.eqb_refl. destruct n; reflexivity.
  - intros a a'. rewrite SE. apply evpol_meaning.
Qed.

Lemma two_loop r (sg : list nat) d l : NoDup l -> forall t t',
  foldM (fun t j => do s <- vget sg j; do t <- set_s d j r s t; do s <- vget sg (12 + j); set_s d j (r + 1) s t) l t = Ok t' ->
  (forall j, In j l -> vget sg j = Ok (sm t' j r) /\ vget sg (12 + j) = Ok (sm t' j (r + 1))) /\ (forall c q, ~ In c l -> sm t' c q = sm t c q).
Proof.
  induction l as [|x l IH]; intros ND t t' E; cbn [foldM] in E; [injection E as <-; split; [intros j []|reflexivity]|].
  inversion ND as [|? ? N1 N2]; subst. bi E. apply IH in E; [|exact N2]. destruct E as [A B]. bi E0. bi E0. bi E0.
  apply set_s_eq in E1. destruct E1 as [_ [_ [_ [_ C1]]]]. apply set_s_eq in E0. destruct E0 as [_ [_ [_ [_ C2]]]]. split.
  - intros j [<-|Hj]; [|apply A, Hj]. rewrite !B by exact N1. rewrite C2, gset_same, C1. rewrite gset_row by lia. rewrite gset_same. auto.
  - intros c q Hc. rewrite B by (intros X; apply Hc; right; exact X). rewrite C2, C1. rewrite !gset_col; [reflexivity| |]; intros ->; apply Hc; left; reflexivity.
Qed.

(* FFT4 with parameters firstW, incW, scale and type 4 or 2 *)
Lemma put_fft_ok d r w i s ty rest sg t t' : put_fft d r (w :: i :: s :: ty :: rest) sg t = Ok t' ->
  (forall j, j < 12 -> nth_error sg j = Some (sm t' j r) /\ nth_error sg (12 + j) = Some (sm t' j (r + 1))) /\
  (forall n, sel t' n r = match n with FFT4 => f1 | _ => f0 end) /\ (forall n, sel t' n (r + 1) = f0) /\
  ((fint ty = 4%Z /\ (fmul i i = fneg f1 -> forall a a', zeros (pil_fft4 (sel t' FFT4 r) (fun c => cm t' c r) a a') <->
      forall k, k < 4 -> tup a' (3 * k) = let y := fmul w (fpow i k) in
        kscale s (kadd (kadd (tup a 0) (kscale y (tup a 6))) (kadd (kscale (fpow y 2) (tup a 3)) (kscale (fpow y 3) (tup a 9)))))) \/
   (fint ty = 2%Z /\ (forall a a', zeros (pil_fft4 (sel t' FFT4 r) (fun c => cm t' c r) a a') <->
      tup a' 0 = kscale s (kadd (tup a 0) (kscale w (tup a 3))) /\ tup a' 3 = kscale s (ksub (tup a 0) (kscale w (tup a 3))) /\
      tup a' 6 = kscale s (kadd (tup a 6) (kscale (fmul w i) (tup a 9))) /\ tup a' 9 = kscale s (ksub (tup a 6) (kscale (fmul w i) (tup a 9)))))).
Proof.
  intros H. unfold put_fft in H. bi H. bi H. bi H. bi H. bi H. bi H. bi H. bi H. bi H.
  cbn in E2, E3, E4, E5. injection E2 as <-. injection E3 as <-. injection E4 as <-. injection E5 as <-.
  apply two_loop in E; [|apply seq_NoDup]. destruct E as [SG _].
  apply set_sels_inv in E0. destruct E0 as [_ [S1 [_ SL1]]]. apply set_sels_inv in E1. destruct E1 as [_ [S2 [_ SL2]]].
  apply set_cs_inv in E7. destruct E7 as [_ [S4 [SL4 C4]]]. apply set_cs_inv in H. destruct H as [_ [S5 [SL5 C5]]].
  assert (S3 : sm x6 = sm x1 /\ sel x6 = sel x1 /\
    ((fint ty = 4%Z /\ cm x6 0 r = s /\ cm x6 1 r = fmul s (fmul w w) /\ cm x6 2 r = fmul s w /\ cm x6 3 r = fmul (fmul s w) (fmul w w) /\ cm x6 4 r = fmul (fmul s w) i /\
       cm x6 5 r = fmul (fmul (fmul s w) (fmul w w)) i /\ cm x6 6 r = f0 /\ cm x6 7 r = f0 /\ cm x6 8 r = f0) \/
     (fint ty = 2%Z /\ (forall k, k < 6 -> cm x6 k r = f0) /\ cm x6 6 r = s /\ cm x6 7 r = fmul s w /\ cm x6 8 r = fmul (fmul s w) i))).
  { destruct (Z.eqb_spec (fint ty) 4) as [T|T]; [|destruct (Z.eqb_spec (fint ty) 2) as [T2|T2]; [|discriminate]].
    - bi E6. apply set_cs_inv in E. destruct E as [_ [U1 [U2 U3]]]. apply set_cs_inv in E6. destruct E6 as [_ [V1 [V2 V3]]].
      split; [congruence|]. split; [congruence|]. left. split; [exact T|]. rewrite !V3, !U3, Nat.eqb_refl. repeat split.
    - bi E6. apply set_cs_inv in E. destruct E as [_ [U1 [U2 U3]]]. apply set_cs_inv in E6. destruct E6 as [_ [V1 [V2 V3]]].
      split; [congruence|]. split; [congruence|]. right. split; [exact T2|]. split; [|rewrite !V3, !U3, Nat.eqb_refl; repeat split].
      intros k Hk. rewrite V3, U3, Nat.eqb_refl. do 6 (destruct k as [|k]; [reflexivity|]). lia. }
  clear E6. destruct S3 as [S3 [SL3 C3]].
  assert (CL : forall k, k < 9 -> cm t' k r = cm x6 k r).
  { intros k Hk. rewrite C5. destruct (Nat.eqb_spec r (r + 1)); [lia|]. rewrite C4, Nat.eqb_refl. do 9 (destruct k as [|k]; [reflexivity|]). lia. }
  assert (SE : forall n, sel t' n r = match n with FFT4 => f1 | _ => f0 end).
  { intros n. rewrite SL5, SL4, SL3, SL2. destruct (Nat.eqb_spec r (r + 1)); [lia|]. rewrite SL1, Nat.eqb_refl. destruct n; reflexivity. }
  split; [|split; [exact SE|split]].
  - intros j Hj. specialize (SG j). rewrite in_seq in SG. destruct (SG ltac:(lia)) as [A B]. rewrite S5, S4, S3, S2, S1. split; apply vget_nth; assumption.
  - intros n. rewrite SL5, SL4, SL3, SL2, Nat.eqb_refl. destruct n; reflexivity.
  - rewrite SE. destruct C3 as [[T [H0 [H1 [H2 [H3 [H4 [H5 [H6 [H7 H8]]]]]]]]]|[T [H0 [H6 [H7 H8]]]]]; [left|right]; (split; [exact T|]).
    + intros Hi a a'. apply fft4_meaning; try (rewrite CL by lia; assumption). exact Hi.
    + intros a a'. apply fft2_meaning; try (rewrite CL by lia; assumption). intros k Hk. rewrite CL by lia. apply H0, Hk.
Qed.

(* Poseidon: row r+j+1 is round j of row r+j, for the 30 rounds; the constants of round j are
   cposeidon[12j..12j+12], and rounds 4 to 25 are partial *)
Definition rc (cp : list Z) (j : nat) : list Fr := map (fun k => fof (nth (12 * j + k) cp 0%Z)) (seq 0 12).
Definition is_partial (j : nat) : bool := (4 <=? j) && (j <? 26).

Lemma poseidon_row_ok cp d r sg t j t' : put_poseidon_row cp d r sg t j = Ok t' ->
  (forall k, k < 12 -> nth_error sg (12 * j + k) = Some (sm t' k (r + j))) /\
  row12 (fun c => cm t' c (r + j)) = rc cp j /\
  (forall n, sel t' n (r + j) = match n with POSEIDON12 => if j <? 30 then f1 else f0 | PARTIAL => if is_partial j then f1 else f0 | _ => f0 end) /\
  (forall q, q <> r + j -> (forall c, sm t' c q = sm t c q) /\ (forall c, cm t' c q = cm t c q) /\ (forall n, sel t' n q = sel t n q)).
Proof.
  intros H. unfold put_poseidon_row in H. bi H. bi H. bi H.
  assert (L : forall l, NoDup l -> forall t t', foldM (fun t k => do s <- vget sg (j * 12 + k); do t <- set_s d k (r + j) s t; do c <- vget cp (j * 12 + k); set_c d k (r + j) (fof c) t) l t = Ok t' ->
    sel t' = sel t /\ (forall k, In k l -> vget sg (j * 12 + k) = Ok (sm t' k (r + j)) /\ rmap fof (vget cp (j * 12 + k)) = Ok (cm t' k (r + j))) /\
    (forall k, ~ In k l -> sm t' k (r + j) = sm t k (r + j) /\ cm t' k (r + j) = cm t k (r + j)) /\
    (forall k q, q <> r + j -> sm t' k q = sm t k q /\ cm t' k q = cm t k q)).
  { clear. induction l as [|y l IH]; intros ND t t' E; cbn [foldM] in E; [injection E as <-; repeat split; auto; destruct H|].
    inversion ND as [|? ? N1 N2]; subst. bi E. apply IH in E; [|exact N2]. destruct E as [A [B [C D]]]. bi E0. bi E0. bi E0.
    apply set_s_eq in E1. destruct E1 as [_ [_ [P1 [P2 P3]]]]. apply set_c_eq in E0. destruct E0 as [_ [_ [Q1 [Q2 Q3]]]]. split; [congruence|]. split; [|split].
    - intros k [<-|Hk]; [|apply B, Hk]. destruct (C _ N1) as [-> ->]. rewrite Q1, P3, Q3, !gset_same. split; [exact E|]. rewrite E2. reflexivity.
    - intros k Hk. destruct (C k ltac:(intros X; apply Hk; right; exact X)) as [-> ->]. rewrite Q1, P3, Q3, P1.
      assert (k <> y) by (intros ->; apply Hk; left; reflexivity). rewrite !gset_col by assumption. auto.
    - intros k q Hq. destruct (D k q Hq) as [-> ->]. rewrite Q1, P3, Q3, P1, !gset_row by assumption. auto. }
  apply L in E; [|apply seq_NoDup]. clear L. destruct E as [SL0 [SG [_ OT]]].
  apply set_sels_inv in E0. destruct E0 as [_ [S1 [C1 SL1]]]. apply set_sels_inv in E1. destruct E1 as [_ [S2 [C2 SL2]]]. apply set_sels_inv in H. destruct H as [_ [S3 [C3 SL3]]].
  split; [|split; [|split]].
  - intros k Hk. apply vget_nth. rewrite S3, S2, S1. rewrite (Nat.mul_comm 12). apply SG, in_seq. lia.
  - unfold row12, rc. apply map_ext_in. intros k Hk. rewrite C3, C2, C1. destruct (SG k Hk) as [_ X]. rewrite (Nat.mul_comm 12).
    unfold vget in X. destruct (nth_error cp (j * 12 + k)) as [z|] eqn:E; cbn in X; [|discriminate]. injection X as <-. f_equal. symmetry. apply nth_error_nth, E.
  - intros n. rewrite SL3, SL2, SL1, Nat.eqb_refl. destruct n; reflexivity.
  - intros q Hq. split; [|split]; intros y.
    + rewrite S3, S2, S1. apply OT, Hq.
    + rewrite C3, C2, C1. apply OT, Hq.
    + rewrite SL3, SL2, SL1. destruct (Nat.eqb_spec q (r + j)); [contradiction|]. rewrite SL0. reflexivity.
Qed.
Lemma poseidon_rows_ok cp d r sg n : forall t t', foldM (put_poseidon_row cp d r sg) (seq 0 n) t = Ok t' ->
  forall j, j < n ->
  (forall k, k < 12 -> nth_error sg (12 * j + k) = Some (sm t' k (r + j))) /\
  row12 (fun c => cm t' c (r + j)) = rc cp j /\
  (forall m, sel t' m (r + j) = match m with POSEIDON12 => if j <? 30 then f1 else f0 | PARTIAL => if is_partial j then f1 else f0 | _ => f0 end).
Proof.
  induction n as [|n IH]; intros t t' H j Hj; [lia|]. rewrite seq_S in H. cbn [plus] in H. rewrite foldM_app in H. bi H. cbn [foldM] in H. bi H. injection H as <-.
  apply poseidon_row_ok in E0. destruct E0 as [A [B [C D]]]. destruct (Nat.eq_dec j n) as [->|N]; [auto|].
  destruct (D (r + j) ltac:(lia)) as [D1 [D2 D3]]. destruct (IH _ _ E j ltac:(lia)) as [X [Y Z]]. split; [|split].
  - intros k Hk. rewrite D1. apply X, Hk.
  - rewrite <- Y. unfold row12. apply map_ext. intros. apply D2.
  - intros m. rewrite D3. apply Z.
Qed.
Fixpoint rounds (cp : list Z) (j n : nat) (x : list Fr) : list Fr :=
  match n with O => x | S m => rounds cp (j + 1) m (round (is_partial j) (rc cp j) x) end.
Lemma rounds_snoc cp n : forall j x, rounds cp j (S n) x = round (is_partial (j + n)) (rc cp (j + n)) (rounds cp j n x).
Proof.
  induction n as [|n IH]; intros j x; [cbn [rounds]; rewrite Nat.add_0_r; reflexivity|].
  change (rounds cp j (S (S n)) x) with (rounds cp (j + 1) (S n) (round (is_partial j) (rc cp j) x)). rewrite IH.
  change (rounds cp j (S n) x) with (rounds cp (j + 1) n (round (is_partial j) (rc cp j) x)). replace (j + 1 + n) with (j + S n) by lia. reflexivity.
Qed.

Lemma put_poseidon_ok cp d r sg t t' : put_poseidon cp d r sg t = Ok t' ->
  length sg = 372 /\
  (forall j k, j < 31 -> k < 12 -> nth_error sg (12 * j + k) = Some (sm t' k (r + j))) /\
  (forall j, j < 31 -> sel t' GATE (r + j) = f0 /\ sel t' CMULADD (r + j) = f0 /\ sel t' EVPOL4 (r + j) = f0 /\ sel t' FFT4 (r + j) = f0) /\
  sel t' POSEIDON12 (r + 30) = f0 /\
  (forall a : grid Fr,
    (forall j, j < 30 -> zeros (pil_poseidon (sel t' POSEIDON12 (r + j)) (sel t' PARTIAL (r + j)) (fun c => cm t' c (r + j)) (fun c => a c (r + j)) (fun c => a c (r + j + 1)))) <->
    (forall j, j <= 30 -> row12 (fun c => a c (r + j)) = rounds cp 0 j (row12 (fun c => a c r)))).
Proof.
  intros H. unfold put_poseidon in H. destruct (length sg =? 31 * 12) eqn:L; [|discriminate]. apply Nat.eqb_eq in L. cbn [negb] in H.
  pose proof (poseidon_rows_ok _ _ _ _ _ _ _ H) as R. split; [exact L|]. split; [|split; [|split]].
  - intros j k Hj Hk. apply (R j Hj), Hk.
  - intros j Hj. destruct (R j Hj) as [_ [_ S]]. rewrite !S. auto.
  - destruct (R 30 ltac:(lia)) as [_ [_ S]]. rewrite S. reflexivity.
  - intros a.
    assert (M : forall j, j < 30 -> (zeros (pil_poseidon (sel t' POSEIDON12 (r + j)) (sel t' PARTIAL (r + j)) (fun c => cm t' c (r + j)) (fun c => a c (r + j)) (fun c => a c (r + j + 1))) <->
      row12 (fun c => a c (r + j + 1)) = round (is_partial j) (rc cp j) (row12 (fun c => a c (r + j))))).
    { intros j Hj. destruct (R j ltac:(lia)) as [_ [C S]]. rewrite !S. destruct (Nat.ltb_spec j 30); [|lia]. rewrite poseidon_meaning, C. reflexivity. }
    split.
    + intros Z. induction j as [|j IH]; intros Hj; [rewrite Nat.add_0_r; reflexivity|].
      rewrite rounds_snoc. cbn [plus]. rewrite <- IH by lia. rewrite <- (proj1 (M j ltac:(lia)) (Z j ltac:(lia))). replace (r + S j) with (r + j + 1) by lia. reflexivity.
    + intros Z j Hj. apply M; [exact Hj|]. rewrite (Z j) by lia. replace (r + j + 1) with (r + S j) by lia. rewrite (Z (S j)) by lia. rewrite rounds_snoc. reflexivity.
Qed.
