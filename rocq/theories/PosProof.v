(* The AVX2 and AVX-512 Goldilocks Poseidon functions compute the scalar function. *)
From Verif Require Import Base ListAux GlModel GlProof FrField HashModel AvxModel AvxProof PosModel.
From Coq Require Import Ring.
Open Scope nat_scope.
Add Ring FrR : Fr_ring.
Local Notation P := 18446744069414584321%Z (only parsing).

(** * Lifting the register operations to field elements *)

Lemma fint_u64 a : u64 (fint a). Proof. apply canonical_u64. exact (fint_range a). Qed.
Lemma fints_u64 l : Forall u64 (map fint l). Proof. induction l; constructor; [apply fint_u64|assumption]. Qed.

Lemma map2_fint (f : Z -> Z -> Z) (g : Fr -> Fr -> Fr) : (forall a b, f (fint a) (fint b) = fint (g a b)) ->
  forall x y, map2 f (map fint x) (map fint y) = map fint (map2 g x y).
Proof. intros H. induction x as [|a x IH]; intros [|b y]; try reflexivity. cbn [map map2]. rewrite H, IH. reflexivity. Qed.

Definition lifts2 (op : list Z -> list Z -> list Z) (g : Fr -> Fr -> Fr) : Prop :=
  forall x y, length x = length y -> op (map fint x) (map fint y) = map fint (map2 g x y).
Definition lifts1 (op : list Z -> list Z) (g : Fr -> Fr) : Prop := forall x, op (map fint x) = map fint (map g x).

Lemma v2_add_l : lifts2 v2_add fadd.
Proof.
  intros x y L. rewrite v2_add_all by (try apply fints_u64; rewrite !map_length; exact L).
  apply map2_fint. intros. symmetry. apply fint_add.
Qed.
Lemma v2_mul_l : lifts2 v2_mul fmul.
Proof.
  intros x y L. rewrite v2_mul_all by (try apply fints_u64; rewrite !map_length; exact L).
  apply map2_fint. intros. symmetry. apply fint_mul.
Qed.
Lemma v2_square_l : lifts1 v2_square fsquare.
Proof.
  intros x. rewrite v2_square_all by apply fints_u64. rewrite !map_map. apply map_ext. intros a.
  rewrite fsquare_mul, fint_mul. reflexivity.
Qed.
Lemma v5_add_l : lifts2 v5_add fadd.
Proof.
  intros x y L. rewrite v5_add_all by (try apply fints_u64; rewrite !map_length; exact L).
  apply map2_fint. intros. symmetry. apply fint_add.
Qed.
Lemma v5_mul_l : lifts2 v5_mul fmul.
Proof.
  intros x y L. rewrite v5_mul_all by (try apply fints_u64; rewrite !map_length; exact L).
  apply map2_fint. intros. symmetry. apply fint_mul.
Qed.
Lemma v5_square_l : lifts1 v5_square fsquare.
Proof.
  intros x. rewrite v5_square_all by apply fints_u64. rewrite !map_map. apply map_ext. intros a.
  rewrite fsquare_mul, fint_mul. reflexivity.
Qed.

Lemma map2_len {A B C} (f : A -> B -> C) x y : length x = length y -> length (map2 f x y) = length x.
Proof. revert y; induction x as [|a x IH]; intros [|b y] L; try discriminate L; [reflexivity|]. cbn [map2 length]. f_equal. apply IH. cbn in L. lia. Qed.
Lemma map2_app {A B C} (f : A -> B -> C) x y x' y' : length x = length y -> map2 f (x ++ x') (y ++ y') = map2 f x y ++ map2 f x' y'.
Proof. revert y; induction x as [|a x IH]; intros [|b y] L; try discriminate L; [reflexivity|]. cbn [map2 app]. f_equal. apply IH. cbn in L. lia. Qed.

Lemma pack_f_app n w a l : w <> 0 -> length a = w -> length l <= n -> pack_f (S n) w (a ++ l) = a :: pack_f n w l.
Proof.
  intros W La L. cbn [pack_f]. destruct (a ++ l) eqn:E; [destruct a; [cbn in La; lia|discriminate E]|].
  rewrite <- E. f_equal.
  - rewrite <- La, firstn_app, Nat.sub_diag, firstn_all, firstn_O, app_nil_r. reflexivity.
  - f_equal. rewrite <- La, skipn_app, Nat.sub_diag, skipn_all, skipn_O. reflexivity.
Qed.
Lemma pack_f_nil n w : pack_f n w [] = []. Proof. destruct n; reflexivity. Qed.

Lemma pack_f_more n m w l : w <> 0 -> length l <= n -> length l <= m -> pack_f n w l = pack_f m w l.
Proof.
  intros W. revert m l. induction n as [|n IH]; intros m l L M.
  - destruct l; [|cbn in L; lia]. rewrite !pack_f_nil. reflexivity.
  - destruct m as [|m]; [destruct l; [|cbn in M; lia]; reflexivity|]. cbn [pack_f]. destruct l as [|z l]; [reflexivity|].
    f_equal. apply IH; rewrite skipn_length; cbn [length] in *; lia.
Qed.
Lemma pack3_spec w a b c : w <> 0 -> length a = w -> length b = w -> length c = w ->
  pack3 w (a ++ b ++ c) = Ok (a, b, c).
Proof.
  intros W A B C. unfold pack3, pack_slice.
  assert (E : length (a ++ b ++ c) = 3 * w) by (rewrite !app_length; lia).
  rewrite E, Nat.mod_mul by exact W. cbn [Nat.eqb bind].
  assert (N : 3 * w = S (3 * w - 1)) by lia. rewrite N, pack_f_app by (rewrite ?app_length; lia).
  rewrite (pack_f_more _ (S (2 * w - 1))) by (rewrite ?app_length; lia). rewrite pack_f_app by (rewrite ?app_length; lia).
  rewrite (pack_f_more _ (S (w - 1))) by (rewrite ?app_length; lia).
  rewrite <- (app_nil_r c), pack_f_app by (rewrite ?app_length; cbn [length]; lia). rewrite app_nil_r. reflexivity.
Qed.
Lemma pack3_fint w (a b c : list Fr) : w <> 0 -> length a = w -> length b = w -> length c = w ->
  pack3 w (map fint (a ++ b ++ c)) = Ok (map fint a, map fint b, map fint c).
Proof. intros. rewrite !map_app. apply pack3_spec; rewrite ?map_length; assumption. Qed.

Definition pow7l (l : list Fr) : list Fr := map pow7 l.

Section Gen.
Variable w : nat.
Variables vadd vmul : list Z -> list Z -> list Z.
Variable vsquare : list Z -> list Z.
Hypothesis W : w <> 0.
Hypothesis HA : lifts2 vadd fadd.
Hypothesis HM : lifts2 vmul fmul.
Hypothesis HS : lifts1 vsquare fsquare.

Definition st3 (x0 x1 x2 : list Fr) : state3 := (map fint x0, map fint x1, map fint x2).
Definition vsp (x0 x1 x2 m0 m1 m2 : list Fr) : list Fr :=
  map2 fadd (map2 fadd (map2 fmul x0 m0) (map2 fmul x1 m1)) (map2 fmul x2 m2).

Ltac len := rewrite ?map2_len, ?map_length; try assumption; try congruence; rewrite ?map2_len; try congruence.

Lemma spmv_l x0 x1 x2 m0 m1 m2 : length x0 = w -> length x1 = w -> length x2 = w -> length m0 = w -> length m1 = w -> length m2 = w ->
  spmv w vadd vmul (st3 x0 x1 x2) (map fint (m0 ++ m1 ++ m2)) = Ok (map fint (vsp x0 x1 x2 m0 m1 m2)).
Proof.
  intros. unfold spmv, st3. rewrite pack3_fint by assumption. cbn [bind].
  rewrite !HM by len. rewrite HA by len. rewrite HA by len. reflexivity.
Qed.

Lemma vpow7_l x : vpow7 vmul vsquare (map fint x) = map fint (pow7l x).
Proof.
  unfold vpow7, pow7l. rewrite HS. rewrite HM by (rewrite map_length; reflexivity). rewrite HS. rewrite HM by (rewrite map_length, map2_len; rewrite map_length; reflexivity). f_equal.
  induction x as [|a x IH]; [reflexivity|]. cbn [map map2]. f_equal. exact IH.
Qed.
Lemma pow7_triple_l x0 x1 x2 : pow7_triple vmul vsquare (st3 x0 x1 x2) = st3 (pow7l x0) (pow7l x1) (pow7l x2).
Proof. unfold pow7_triple, st3. rewrite !vpow7_l. reflexivity. Qed.

Lemma add_avx_l x0 x1 x2 m0 m1 m2 : length x0 = w -> length x1 = w -> length x2 = w -> length m0 = w -> length m1 = w -> length m2 = w ->
  add_avx w vadd (st3 x0 x1 x2) (map fint (m0 ++ m1 ++ m2)) = Ok (st3 (map2 fadd x0 m0) (map2 fadd x1 m1) (map2 fadd x2 m2)).
Proof.
  intros. unfold add_avx, st3. rewrite pack3_fint by assumption. cbn [bind]. rewrite !HA by len. reflexivity.
Qed.
Lemma mult_add_l x0 x1 x2 s m0 m1 m2 : length x0 = w -> length x1 = w -> length x2 = w -> length s = w ->
  length m0 = w -> length m1 = w -> length m2 = w ->
  mult_add_avx w vadd vmul (st3 x0 x1 x2) (map fint s) (map fint (m0 ++ m1 ++ m2))
  = Ok (st3 (map2 fadd x0 (map2 fmul m0 s)) (map2 fadd x1 (map2 fmul m1 s)) (map2 fadd x2 (map2 fmul m2 s))).
Proof.
  intros. unfold mult_add_avx, st3. rewrite pack3_fint by assumption. cbn [bind]. rewrite !HM by len. rewrite !HA by len. reflexivity.
Qed.
End Gen.

(** * The 72-bit product *)

Definition small32 (b : Z) : Prop := (0 <= b < 4294967296)%Z.
Section P72.
Open Scope Z_scope.
Variables x b : Z.
Hypothesis X : u64 x.
Hypothesis B : small32 b.
Lemma p72_spec hl r0l : hl = hi32 x * b ->
  (forall r0, u64 r0 -> hi32 (r0l r0) = lo32 r0) ->
  let ll := l_mul32 x b in
  let r0 := l_add hl (l_srl 32 ll) in
  l_srl 32 r0 * 18446744073709551616 + l_blend_aa ll (r0l r0) = x * b /\ u64 (l_srl 32 r0) /\ u64 (l_blend_aa ll (r0l r0)).
Proof.
  intros Ehl Hr. destruct (split32 _ X) as (EX & XH & XL). unfold small32 in B.
  assert (Eb : lo32 b = b) by (unfold lo32; rewrite H_eq; apply Z.mod_small; exact B).
  cbv zeta. set (ll := l_mul32 x b). assert (Ell : ll = lo32 x * b) by (unfold ll, l_mul32; rewrite Eb; reflexivity).
  pose proof (mul32_bound _ _ XL B) as Bll. pose proof (mul32_bound _ _ XH B) as Bhl. rewrite <- Ell in Bll. rewrite <- Ehl in Bhl.
  assert (EP : x * b = hl * 4294967296 + ll) by (rewrite Ehl, Ell; rewrite EX at 1; ring).
  assert (Ull : u64 ll) by (unfold u64; lia). destruct (split32 _ Ull) as (E0 & B0 & B0').
  set (r0 := l_add hl (l_srl 32 ll)).
  assert (Er : r0 = hl + hi32 ll) by (unfold r0; rewrite srl32, l_add_w by (unfold u64; lia); unfold wadd; zb; lia).
  assert (Ur : u64 r0) by (unfold u64; lia). destruct (split32 _ Ur) as (E1 & B1 & B1').
  rewrite srl32. unfold l_blend_aa. rewrite (Hr _ Ur), H_eq, EP. unfold u64. lia.
Qed.
End P72.

Lemma mult_72_2_1 x b : u64 x -> small32 b ->
  exists h l, mult_72_2 [x] [b] = ([h], [l]) /\ (h * 18446744073709551616 + l = x * b)%Z /\ u64 h /\ u64 l.
Proof.
  intros X B. eexists. eexists. split; [reflexivity|]. apply (p72_spec x b X B _ (l_sll 32)).
  - unfold l_mul32. rewrite srl32. destruct (split32 _ X) as (_ & XH & _). unfold small32 in B.
    unfold lo32. rewrite H_eq, !Z.mod_small by (try exact B; exact XH). reflexivity.
  - intros r0 U. destruct (split32 _ U) as (E & B1 & B2). unfold l_sll. rewrite W_eq. change (2 ^ 32)%Z with 4294967296%Z.
    replace ((r0 * 4294967296) mod 18446744073709551616)%Z with (lo32 r0 * 4294967296)%Z.
    + unfold hi32. rewrite H_eq. apply Z.div_mul. lia.
    + apply (Z.mod_unique _ _ (hi32 r0)); lia.
Qed.
Lemma mult_72_5_1 x b : u64 x -> small32 b ->
  exists h l, mult_72_5 [x] [b] = ([h], [l]) /\ (h * 18446744073709551616 + l = x * b)%Z /\ u64 h /\ u64 l.
Proof.
  intros X B. eexists. eexists. split; [reflexivity|]. apply (p72_spec x b X B _ l_ldup).
  - unfold l_mul32. rewrite (hdup_lo _ X). unfold small32 in B.
    f_equal. unfold lo32. rewrite H_eq. apply Z.mod_small. exact B.
  - intros r0 U. destruct (split32 _ U) as (E & B1 & B2). unfold l_ldup. apply hi_join. exact B2.
Qed.

(* the result of a lane: the pair (h, l) stands for x * b *)
Definition is72 (p : list Z * list Z) (x b : list Fr) : Prop :=
  length (fst p) = length x /\ length (snd p) = length x /\ Forall u64 (fst p) /\ Forall u64 (snd p) /\
  map2 (fun h l => (h * 18446744073709551616 + l) mod P)%Z (fst p) (snd p) = map fint (map2 fmul x b).
Definition lifts72 (op : list Z -> list Z -> list Z * list Z) : Prop :=
  forall x b, length x = length b -> Forall (fun c => small32 (fint c)) b -> is72 (op (map fint x) (map fint b)) x b.

Section L72.
Variable op : list Z -> list Z -> list Z * list Z.
Hypothesis op_nil : op [] [] = ([], []).
Hypothesis op_cons : forall a x b y, op (a :: x) (b :: y) = (fst (op [a] [b]) ++ fst (op x y), snd (op [a] [b]) ++ snd (op x y)).
Hypothesis op_1 : forall x b, u64 x -> small32 b ->
  exists h l, op [x] [b] = ([h], [l]) /\ (h * 18446744073709551616 + l = x * b)%Z /\ u64 h /\ u64 l.
Lemma lift72 : lifts72 op.
Proof.
  intros x. induction x as [|a x IH]; intros [|b y] L F; try discriminate L.
  - cbn [map]. rewrite op_nil. repeat split; constructor.
  - inversion F; subst. cbn [map]. rewrite op_cons. destruct (op_1 (fint a) (fint b) (fint_u64 a) H1) as (h & l & E & V & Uh & Ul).
    rewrite E. destruct (IH y ltac:(cbn in L; lia) H2) as (L1 & L2 & F1 & F2 & M). unfold is72. cbn [fst snd app length map2].
    repeat split; try (f_equal; assumption); try (constructor; assumption). rewrite V, M. cbn [map]. f_equal.
    rewrite fint_mul. reflexivity.
Qed.
End L72.
Lemma mult_72_2_l : lifts72 mult_72_2.
Proof. apply lift72; [reflexivity|reflexivity|exact mult_72_2_1]. Qed.
Lemma mult_72_5_l : lifts72 mult_72_5.
Proof. apply lift72; [reflexivity|reflexivity|exact mult_72_5_1]. Qed.

Lemma modq a : exists q, (a mod P = a + q * P)%Z.
Proof. exists (- (a / P))%Z. rewrite Z.mod_eq by lia. lia. Qed.
Lemma lane8 h0 l0 h1 l1 h2 l2 :
  ((((h0 + h1) mod P + h2) mod P * 18446744073709551616 + ((l0 + l1) mod P + l2) mod P) mod P
  = (((h0 * 18446744073709551616 + l0) mod P + (h1 * 18446744073709551616 + l1) mod P) mod P + (h2 * 18446744073709551616 + l2) mod P) mod P)%Z.
Proof.
  destruct (modq (h0 + h1)) as [q0 ->]. destruct (modq (h0 + h1 + q0 * P + h2)) as [q1 ->].
  destruct (modq (l0 + l1)) as [q2 ->]. destruct (modq (l0 + l1 + q2 * P + l2)) as [q3 ->].
  destruct (modq (h0 * 18446744073709551616 + l0)) as [q4 ->]. destruct (modq (h1 * 18446744073709551616 + l1)) as [q5 ->].
  destruct (modq (h2 * 18446744073709551616 + l2)) as [q6 ->].
  destruct (modq (h0 * 18446744073709551616 + l0 + q4 * P + (h1 * 18446744073709551616 + l1 + q5 * P))) as [q7 ->].
  rewrite <- (Z.mod_add _ (q4 + q5 + q6 + q7 - ((q0 + q1) * 18446744073709551616 + q2 + q3)) P) by lia. f_equal. lia.
Qed.

Lemma all_mod {A B} (f : A -> B -> Z) x y : Forall u64 (map2 (fun a b => f a b mod P)%Z x y).
Proof.
  revert y; induction x as [|a x IH]; intros [|b y]; cbn [map2]; constructor; [|apply IH].
  unfold u64. pose proof (Z.mod_pos_bound (f a b) P ltac:(reflexivity)). lia.
Qed.

Lemma lanes8 n (h0 h1 h2 l0 l1 l2 : list Z) : length h0 = n -> length h1 = n -> length h2 = n -> length l0 = n -> length l1 = n -> length l2 = n ->
  map2 (fun a b => (a * 18446744073709551616 + b) mod P)%Z
    (map2 (fun a b => (a + b) mod P)%Z (map2 (fun a b => (a + b) mod P)%Z h0 h1) h2)
    (map2 (fun a b => (a + b) mod P)%Z (map2 (fun a b => (a + b) mod P)%Z l0 l1) l2)
  = map2 (fun a b => (a + b) mod P)%Z (map2 (fun a b => (a + b) mod P)%Z
      (map2 (fun h l => (h * 18446744073709551616 + l) mod P)%Z h0 l0) (map2 (fun h l => (h * 18446744073709551616 + l) mod P)%Z h1 l1))
      (map2 (fun h l => (h * 18446744073709551616 + l) mod P)%Z h2 l2).
Proof.
  revert h0 h1 h2 l0 l1 l2. induction n as [|n IH]; intros h0 h1 h2 l0 l1 l2 E0 E1 E2 E3 E4 E5.
  - destruct h0, h1, h2, l0, l1, l2; try discriminate. reflexivity.
  - destruct h0; [discriminate|]. destruct h1; [discriminate|]. destruct h2; [discriminate|].
    destruct l0; [discriminate|]. destruct l1; [discriminate|]. destruct l2; [discriminate|].
    cbn [length] in *. cbn [map2]. rewrite lane8, IH by lia. reflexivity.
Qed.

Section Gen8.
Variable w : nat.
Variable vadd : list Z -> list Z -> list Z.
Variable vreduce : list Z * list Z -> list Z.
Variable mult_72 : list Z -> list Z -> list Z * list Z.
Hypothesis W : w <> 0.
Hypothesis HA : forall x y, length x = length y -> Forall u64 x -> Forall u64 y -> vadd x y = map2 (fun a b => (a + b) mod P)%Z x y.
Hypothesis HR : forall h l, length h = length l -> Forall u64 h -> Forall u64 l ->
  vreduce (h, l) = map2 (fun a b => (a * 18446744073709551616 + b) mod P)%Z h l.
Hypothesis H72 : lifts72 mult_72.

Lemma spmv_8_l x0 x1 x2 m0 m1 m2 : length x0 = w -> length x1 = w -> length x2 = w -> length m0 = w -> length m1 = w -> length m2 = w ->
  Forall (fun c => small32 (fint c)) (m0 ++ m1 ++ m2) ->
  spmv_8 w vadd vreduce mult_72 (st3 x0 x1 x2) (map fint (m0 ++ m1 ++ m2)) = Ok (map fint (vsp x0 x1 x2 m0 m1 m2)).
Proof.
  intros X0 X1 X2 M0 M1 M2 F. apply Forall_app in F. destruct F as [F0 F]. apply Forall_app in F. destruct F as [F1 F2].
  unfold spmv_8, st3. rewrite pack3_fint by assumption. cbn [bind].
  pose proof (H72 x0 m0 ltac:(congruence) F0) as I0. pose proof (H72 x1 m1 ltac:(congruence) F1) as I1. pose proof (H72 x2 m2 ltac:(congruence) F2) as I2.
  destruct (mult_72 (map fint x0) (map fint m0)) as [h0 l0]. destruct (mult_72 (map fint x1) (map fint m1)) as [h1 l1].
  destruct (mult_72 (map fint x2) (map fint m2)) as [h2 l2]. unfold is72 in *. cbn [fst snd] in *.
  destruct I0 as (A0 & B0 & C0 & D0 & E0). destruct I1 as (A1 & B1 & C1 & D1 & E1). destruct I2 as (A2 & B2 & C2 & D2 & E2).
  rewrite (HA h0 h1), (HA l0 l1) by (try assumption; congruence).
  rewrite !HA by (try assumption; try apply all_mod; rewrite map2_len by congruence; congruence).
  rewrite HR by (try apply all_mod; rewrite !map2_len by (rewrite ?map2_len by congruence; congruence); congruence).
  f_equal. unfold vsp. rewrite <- (map2_fint (fun a b => (a + b) mod P)%Z fadd) by (intros; symmetry; apply fint_add).
  rewrite <- (map2_fint (fun a b => (a + b) mod P)%Z fadd) by (intros; symmetry; apply fint_add).
  rewrite <- E0, <- E1, <- E2.
  apply (lanes8 w); congruence.
Qed.
End Gen8.
