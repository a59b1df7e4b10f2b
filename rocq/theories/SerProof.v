(* Decimal texts, and the JSON form of digests and extension elements. *)
From Coq Require Import String Ascii.
From Verif Require Import Base ListAux GlModel NumTheory GlProof FrField F3gModel F3gProof HashModel BnModel SerModel.
Open Scope Z_scope.
Open Scope res_scope.

(** ** decimal texts *)
Definition isdig (c : Z) : Prop := 48 <= c <= 57.
(* the value of a row of digits, after those that make up [acc] *)
Definition hv (acc : Z) (s : text) : Z := fold_left (fun a c => a * 10 + (c - 48)) s acc.

Lemma hv_app a s t : hv a (s ++ t) = hv (hv a s) t.
Proof. unfold hv. apply fold_left_app. Qed.
Lemma hv_ge s : forall a, Forall isdig s -> 0 <= a -> a <= hv a s.
Proof.
  induction s as [|c s IH]; intros a H Ha; cbn [hv fold_left]; [lia|]. inversion H; subst.
  unfold isdig in *. change (a <= hv (a * 10 + (c - 48)) s).
  specialize (IH (a * 10 + (c - 48)) ltac:(assumption) ltac:(lia)). lia.
Qed.
Lemma digit10_ok c : isdig c -> digit10 c = Some (c - 48).
Proof.
  unfold isdig, digit10. intros H. replace (48 <=? c) with true by (symmetry; apply Z.leb_le; lia).
  replace (c <=? 57) with true by (symmetry; apply Z.leb_le; lia). reflexivity.
Qed.

Lemma dec_loop_spec fuel : forall n acc, 0 <= n < 2 ^ Z.of_nat fuel -> (1 <= fuel)%nat ->
  exists ds, dec_loop fuel n acc = ds ++ acc /\ Forall isdig ds /\ hv 0 ds = n /\ ds <> [] /\
    (0 < n -> exists c r, ds = c :: r /\ c <> 48) /\ (n = 0 -> ds = [48]).
Proof.
  induction fuel as [|fu IH]; intros n acc Hn Hf; [lia|]. cbn [dec_loop].
  pose proof (Z.mod_pos_bound n 10 ltac:(lia)) as Hm.
  destruct (Z.ltb_spec n 10) as [L|L].
  - assert (E : n mod 10 = n) by (apply Z.mod_small; lia).
    exists [48 + n mod 10]. rewrite E. split; [reflexivity|].
    split; [constructor; [unfold isdig; lia|constructor]|]. split; [cbn [hv fold_left]; lia|]. split; [discriminate|].
    split; [intros H; exists (48 + n), []; split; [reflexivity|lia]|]. intros ->. reflexivity.
  - rewrite Nat2Z.inj_succ, Z.pow_succ_r in Hn by lia.
    assert (H1 : 0 <= n / 10 < 2 ^ Z.of_nat fu).
    { split; [apply Z.div_pos; lia|]. apply Z.div_lt_upper_bound; lia. }
    assert (Hp : 1 <= n / 10) by (apply Z.div_le_lower_bound; lia).
    assert (Hf' : (1 <= fu)%nat).
    { destruct fu; [|lia]. change (2 ^ Z.of_nat 0) with 1 in H1. lia. }
    destruct (IH (n / 10) ((48 + n mod 10) :: acc) H1 Hf') as [ds [E [D [V [N [Z0 _]]]]]].
    exists (ds ++ [48 + n mod 10]). rewrite E, <- app_assoc. split; [reflexivity|].
    split; [apply Forall_app; split; [exact D|constructor; [unfold isdig; lia|constructor]]|].
    split. { rewrite hv_app, V. cbn [hv fold_left]. pose proof (Z.div_mod n 10 ltac:(lia)). lia. }
    split; [destruct ds; discriminate|]. split.
    + intros _. destruct (Z0 ltac:(lia)) as [c [r [-> Hc]]]. exists c, (r ++ [48 + n mod 10]). split; [reflexivity|exact Hc].
    + lia.
Qed.

Lemma dec_spec n : 0 <= n -> Forall isdig (dec n) /\ hv 0 (dec n) = n /\
  (0 < n -> exists c r, dec n = c :: r /\ c <> 48) /\ (n = 0 -> dec n = [48]) /\ dec n <> [].
Proof.
  intros H. unfold dec.
  destruct (dec_loop_spec (S (Z.to_nat (Z.log2 n))) n []) as [ds [E [D [V [N [P0 Z0]]]]]]; [|lia|].
  { split; [exact H|]. rewrite Nat2Z.inj_succ, Z2Nat.id by apply Z.log2_nonneg.
    destruct (Z.eq_dec n 0) as [->|NZ]; [reflexivity|]. apply Z.log2_spec. lia. }
  rewrite app_nil_r in E. rewrite E. auto.
Qed.
Lemma dec_inj a b : 0 <= a -> 0 <= b -> dec a = dec b -> a = b.
Proof.
  intros Ha Hb E. destruct (dec_spec a Ha) as [_ [V _]]. destruct (dec_spec b Hb) as [_ [V' _]].
  rewrite <- V, <- V', E. reflexivity.
Qed.

Lemma u64_digits_ok s : forall acc, Forall isdig s -> 0 <= acc -> hv acc s < 2 ^ 64 -> u64_digits acc s = Ok (hv acc s).
Proof.
  induction s as [|c s IH]; intros acc D Ha L; [reflexivity|]. inversion D; subst. cbn [u64_digits].
  rewrite digit10_ok by assumption. cbn [hv fold_left] in L |- *.
  assert (Ha' : 0 <= acc * 10 + (c - 48)) by (unfold isdig in *; lia).
  pose proof (hv_ge s (acc * 10 + (c - 48)) ltac:(assumption) Ha') as G. unfold hv in G.
  replace (acc * 10 + (c - 48) <? 2 ^ 64) with true by (symmetry; apply Z.ltb_lt; lia).
  apply IH; assumption.
Qed.
Lemma parse_dec n : 0 <= n < 2 ^ 64 -> parse_u64 (dec n) = Ok n.
Proof.
  intros H. destruct (dec_spec n ltac:(lia)) as [D [V [_ [_ N]]]].
  assert (G : u64_digits 0 (dec n) = Ok n) by (rewrite u64_digits_ok; [rewrite V; reflexivity|exact D|lia|rewrite V; lia]).
  unfold parse_u64. destruct (dec n) as [|c r]; [congruence|]. inversion D; subst. unfold isdig in *.
  replace (c =? 43) with false by (symmetry; apply Z.eqb_neq; lia). exact G.
Qed.

Lemma ff_digits_ok {A} (step : A -> Z -> A) (phi : Z -> A) : (forall a d, 0 <= a -> 0 <= d < 10 -> step (phi a) d = phi (a * 10 + d)) ->
  forall s acc, Forall isdig s -> 0 <= acc -> ff_digits step (phi acc) s = Ok (phi (hv acc s)).
Proof.
  intros Hs. induction s as [|c s IH]; intros acc D Ha; [reflexivity|]. inversion D; subst. cbn [ff_digits].
  rewrite digit10_ok by assumption. unfold isdig in *. rewrite Hs by lia. rewrite IH; [reflexivity|assumption|lia].
Qed.
Lemma ff_dec {A} (zero : A) (step : A -> Z -> A) (phi : Z -> A) : phi 0 = zero ->
  (forall a d, 0 <= a -> 0 <= d < 10 -> step (phi a) d = phi (a * 10 + d)) ->
  forall n, 0 <= n -> ff_from_str zero step (dec n) = Ok (phi n).
Proof.
  intros H0 Hs n Hn. destruct (dec_spec n Hn) as [D [V [Hp [Hz N]]]].
  destruct (Z.eq_dec n 0) as [->|NZ].
  - rewrite (Hz eq_refl). cbn. congruence.
  - destruct (Hp ltac:(lia)) as [c [r [E Hc]]].
    assert (G : ff_digits step zero (dec n) = Ok (phi n)) by (rewrite <- H0, (ff_digits_ok step phi Hs); [rewrite V; reflexivity|exact D|lia]).
    unfold ff_from_str. rewrite E in G |- *. replace (c =? 48) with false by (symmetry; apply Z.eqb_neq; exact Hc). exact G.
Qed.

(** ** words and field elements *)
Lemma fint_64 a : 0 <= fint a < 2 ^ 64.
Proof. pose proof (fint_range a). assert (P < 2 ^ 64) by reflexivity. lia. Qed.
Lemma fr_from_int a : fr_from (fint a) = Ok a.
Proof.
  unfold fr_from, is_valid. pose proof (fint_range a). rewrite <- MODULUS_P in *.
  replace (fint a <? MODULUS) with true by (symmetry; apply Z.ltb_lt; lia). rewrite fof_int. reflexivity.
Qed.
Lemma de_word_ser a : de_word (JStr (dec (fint a))) = Ok a.
Proof. unfold de_word. cbn [de_string bind]. rewrite parse_dec by apply fint_64. cbn [unwrap bind]. apply fr_from_int. Qed.
Lemma de_words_ser l : mapM de_word (map (fun v => JStr (dec (fint v))) l) = Ok l.
Proof. induction l as [|a l IH]; [reflexivity|]. cbn [map mapM]. rewrite de_word_ser. cbn [bind]. rewrite IH. reflexivity. Qed.

Theorem f3g_roundtrip a : wf a -> de_f3g (ser_f3g a) = Ok a.
Proof.
  intros W. unfold ser_f3g. destruct a as [x y z d]. unfold wf in W. cbn [d3 c0 c1 c2] in *. destruct d.
  - unfold e_as_elements. cbn [d3 c0 c1 c2]. unfold de_f3g. rewrite de_words_ser. reflexivity.
  - destruct (W eq_refl) as [-> ->]. cbn [de_f3g]. rewrite parse_dec by apply fint_64. cbn [unwrap bind].
    rewrite fr_from_int. reflexivity.
Qed.
Theorem f3g_encoding_inj a b : wf a -> wf b -> ser_f3g a = ser_f3g b -> a = b.
Proof. intros Wa Wb E. pose proof (f3g_roundtrip a Wa) as H. rewrite E, f3g_roundtrip in H by exact Wb. congruence. Qed.

(** ** digests *)
Lemma gl_digest_roundtrip d : length d = 4%nat -> de_digest GL (ser_digest GL d) = Ok d.
Proof.
  intros L. destruct d as [|a [|b [|c [|e [|? ?]]]]]; try discriminate L. unfold ser_digest, is_dim_1. cbn [nth].
  destruct (feqb b c && feqb b e && feqb b f0) eqn:E.
  - apply andb_prop in E. destruct E as [E E3]. apply andb_prop in E. destruct E as [E1 E2].
    apply feqb_eq in E1. apply feqb_eq in E2. apply feqb_eq in E3. subst c e b.
    cbn [de_digest]. unfold fr_from_str. rewrite (ff_dec f0 _ fof fof_0).
    + cbn [unwrap bind]. rewrite fof_int. reflexivity.
    + intros x d _ _. rewrite fof_add, fof_mul. reflexivity.
    + apply fint_range.
  - cbn [de_digest]. rewrite de_words_ser. reflexivity.
Qed.

Lemma limbs_scalar a b c e : limbs (as_scalar [a; b; c; e]) = [fint a; fint b; fint c; fint e].
Proof.
  unfold limbs. cbn [as_scalar seq map].
  pose proof (fint_64 a). pose proof (fint_64 b). pose proof (fint_64 c). pose proof (fint_64 e).
  generalize dependent (fint a). generalize dependent (fint b). generalize dependent (fint c). generalize dependent (fint e).
  intros x3 H3 x2 H2 x1 H1 x0 H0.
  replace (2 ^ (64 * Z.of_nat 0)) with 1 by reflexivity.
  replace (2 ^ (64 * Z.of_nat 1)) with (2 ^ 64) by reflexivity.
  replace (2 ^ (64 * Z.of_nat 2)) with (2 ^ 64 * 2 ^ 64) by reflexivity.
  replace (2 ^ (64 * Z.of_nat 3)) with (2 ^ 64 * (2 ^ 64 * 2 ^ 64)) by reflexivity.
  assert (HB : 0 < 2 ^ 64) by reflexivity. set (B := 2 ^ 64) in *. clearbody B.
  assert (D : forall x y, 0 <= x < B -> (x + B * y) / B = y).
  { intros x y Hx. replace (x + B * y) with (y * B + x) by ring. rewrite Z.div_add_l by lia. rewrite (Z.div_small x B) by lia. ring. }
  assert (M : forall x y, 0 <= x < B -> (x + B * y) mod B = x).
  { intros x y Hx. replace (x + B * y) with (x + y * B) by ring. rewrite Z.mod_add by lia. apply Z.mod_small. lia. }
  rewrite Z.div_1_r. rewrite <- !Z.div_div by lia. rewrite !D by lia. rewrite !M by lia. reflexivity.
Qed.
Lemma from_as_scalar d : length d = 4%nat -> from_scalar (as_scalar d) = Ok d.
Proof.
  intros L. destruct d as [|a [|b [|c [|e [|? ?]]]]]; try discriminate L. unfold from_scalar. rewrite limbs_scalar.
  cbn [mapM]. rewrite !fr_from_int. reflexivity.
Qed.
Lemma as_scalar_nonneg d : 0 <= as_scalar d.
Proof. induction d as [|a d IH]; cbn [as_scalar]; [lia|]. pose proof (fint_64 a). assert (0 < 2 ^ 64) by reflexivity. nia. Qed.

Lemma inv_step q rinv : 1 < q -> R256 * rinv mod q = 1 ->
  forall a d, 0 <= a -> 0 <= d < 10 ->
  q_add q (q_mul q rinv (a * R256 mod q) (10 * R256 mod q)) (d * R256 mod q) = (a * 10 + d) * R256 mod q.
Proof.
  intros Hq Hi a d _ _. unfold q_add, q_mul.
  rewrite <- Z.mul_mod_idemp_l by lia. rewrite <- (Z.mul_mod (a * R256) (10 * R256)) by lia. rewrite Z.mul_mod_idemp_l by lia.
  replace (a * R256 * (10 * R256) * rinv) with ((a * 10 * R256) * (R256 * rinv)) by ring.
  rewrite <- Z.mul_mod_idemp_r, Hi, Z.mul_1_r by lia. rewrite <- Z.add_mod by lia. f_equal. ring.
Qed.
Lemma q_str q rinv n : 1 < q -> R256 * rinv mod q = 1 -> 0 <= n -> q_from_str q rinv (dec n) = Ok (n * R256 mod q).
Proof.
  intros Hq Hi Hn. unfold q_from_str. apply (ff_dec 0 _ (fun a => a * R256 mod q)).
  - rewrite Z.mul_0_l. apply Z.mod_0_l. lia.
  - apply inv_step; assumption.
  - exact Hn.
Qed.

Lemma kind_GL (k : kind) : {k = GL} + {k <> GL}.
Proof. destruct k; [left; reflexivity|right; discriminate|right; discriminate]. Qed.
Lemma kq_one k : 1 < kq k. Proof. destruct k; reflexivity. Qed.
Lemma kq_inv k : k <> GL -> R256 * krinv k mod kq k = 1.
Proof. destruct k; [congruence| |]; intros _; vm_compute; reflexivity. Qed.

(* what comes back: the limbs of the number taken modulo the field *)
Theorem q_digest_back k d : k <> GL -> de_digest k (ser_digest k d) = from_scalar (as_scalar d mod kq k).
Proof.
  intros Hk. pose proof (kq_one k). pose proof (kq_inv k Hk) as Hi.
  assert (E : de_digest k (ser_digest k d) =
    bind (unwrap (q_from_str (kq k) (krinv k) (dec (q_value (kq k) (krinv k) (as_scalar d))))) from_scalar)
    by (destruct k; [congruence|reflexivity|reflexivity]).
  rewrite E, q_str by (try assumption; unfold q_value; apply Z.mod_pos_bound; lia).
  cbn [unwrap bind]. f_equal. unfold q_value. rewrite Z.mul_mod_idemp_l by lia.
  replace (as_scalar d * krinv k * R256) with (as_scalar d * (R256 * krinv k)) by ring.
  rewrite <- Z.mul_mod_idemp_r, Hi, Z.mul_1_r by lia. reflexivity.
Qed.

(* a digest that the code can print: four elements, and a number below the modulus of the large field *)
Definition canonical (k : kind) (d : digest) : Prop := length d = 4%nat /\ (k <> GL -> as_scalar d < kq k).

Theorem digest_roundtrip k d : canonical k d -> de_digest k (ser_digest k d) = Ok d.
Proof.
  intros [L C]. destruct (kind_GL k) as [->|Hk].
  - apply gl_digest_roundtrip. exact L.
  - rewrite q_digest_back by exact Hk. pose proof (as_scalar_nonneg d). rewrite Z.mod_small by (split; [lia|exact (C Hk)]).
    apply from_as_scalar. exact L.
Qed.
Theorem digest_encoding_inj k a b : canonical k a -> canonical k b -> ser_digest k a = ser_digest k b -> a = b.
Proof. intros Ca Cb E. pose proof (digest_roundtrip k a Ca) as H. rewrite E, digest_roundtrip in H by exact Cb. congruence. Qed.

(* two different digests of four elements printed alike *)
Definition alias_a : digest := [f0; f0; f0; f0].
Definition alias_b : digest := [fof 4891460686036598785; fof 2896914383306846353; fof 13281191951274694749; fof 3486998266802970665].
Lemma alias_same : length alias_b = 4%nat /\ ser_digest BN alias_b = ser_digest BN alias_a /\
  de_digest BN (ser_digest BN alias_b) = Ok alias_a.
Proof. split; [reflexivity|]. split; vm_compute; reflexivity. Qed.
Lemma alias_diff : alias_b <> alias_a.
Proof.
  intros E. assert (H : as_scalar alias_b = as_scalar alias_a) by (rewrite E; reflexivity). revert H. vm_compute. discriminate.
Qed.
(* what a constructed digest always satisfies *)
Lemma mapM_len {A B} (f : A -> res B) l : forall r, mapM f l = Ok r -> length r = length l.
Proof.
  induction l as [|a l IH]; intros r H; cbn [mapM] in H; [injection H as <-; reflexivity|].
  destruct (f a); cbn [bind] in H; try discriminate H. destruct (mapM f l) as [bs| | |]; cbn [bind] in H; try discriminate H.
  injection H as <-. cbn [length]. rewrite (IH bs eq_refl). reflexivity.
Qed.
Lemma mapM_ext_all {A B} (f g : A -> res B) : (forall a, f a = g a) -> forall l, mapM f l = mapM g l.
Proof. intros H. induction l as [|a l IH]; cbn [mapM]; [reflexivity|]. rewrite H, IH. reflexivity. Qed.
Lemma fr_from_inv v x : 0 <= v -> fr_from v = Ok x -> fint x = v.
Proof.
  unfold fr_from, is_valid. intros Hv H. destruct (Z.ltb_spec v MODULUS) as [L|]; [|discriminate H]. injection H as <-.
  rewrite fint_of. rewrite MODULUS_P in L. apply Z.mod_small. lia.
Qed.
Lemma mapM_fr_from l : forall d, Forall (fun v => 0 <= v) l -> mapM fr_from l = Ok d -> map fint d = l.
Proof.
  induction l as [|v l IH]; intros d F H; cbn [mapM] in H; [injection H as <-; reflexivity|]. inversion F; subst.
  destruct (fr_from v) as [x| | |] eqn:E; cbn [bind] in H; try discriminate H.
  destruct (mapM fr_from l) as [bs| | |] eqn:E2; cbn [bind] in H; try discriminate H. injection H as <-. cbn [map].
  rewrite (fr_from_inv v x) by assumption. rewrite (IH bs) by auto. reflexivity.
Qed.
Lemma from_scalar_inv v d : 0 <= v < R256 -> from_scalar v = Ok d -> length d = 4%nat /\ as_scalar d = v.
Proof.
  intros Hv H. unfold from_scalar in H. split; [rewrite (mapM_len _ _ _ H); reflexivity|].
  assert (F : Forall (fun v => 0 <= v) (limbs v)).
  { unfold limbs. apply Forall_forall. intros x Hx. apply in_map_iff in Hx. destruct Hx as [i [<- _]]. apply Z.mod_pos_bound. reflexivity. }
  apply mapM_fr_from in H; [|exact F].
  assert (L : length d = 4%nat) by (rewrite <- (map_length fint d), H; reflexivity).
  destruct d as [|a [|b [|c [|e [|? ?]]]]]; try discriminate L. cbn [map] in H. unfold limbs in H. cbn [seq map] in H.
  pose proof (f_equal (fun l => nth 0 l 0) H) as Ha. pose proof (f_equal (fun l => nth 1 l 0) H) as Hb.
  pose proof (f_equal (fun l => nth 2 l 0) H) as Hc. pose proof (f_equal (fun l => nth 3 l 0) H) as He.
  cbn [nth] in Ha, Hb, Hc, He. cbn [as_scalar]. rewrite Ha, Hb, Hc, He.
  replace (2 ^ (64 * Z.of_nat 0)) with 1 by reflexivity.
  replace (2 ^ (64 * Z.of_nat 1)) with (2 ^ 64) by reflexivity.
  replace (2 ^ (64 * Z.of_nat 2)) with (2 ^ 64 * 2 ^ 64) by reflexivity.
  replace (2 ^ (64 * Z.of_nat 3)) with (2 ^ 64 * (2 ^ 64 * 2 ^ 64)) by reflexivity.
  unfold R256 in Hv. replace (2 ^ 256) with (2 ^ 64 * (2 ^ 64 * (2 ^ 64 * 2 ^ 64))) in Hv by reflexivity.
  assert (HB : 0 < 2 ^ 64) by reflexivity. set (B := 2 ^ 64) in *. clearbody B. clear - Hv HB.
  rewrite Z.div_1_r, <- !Z.div_div by lia.
  pose proof (Z.div_mod v B ltac:(lia)). pose proof (Z.div_mod (v / B) B ltac:(lia)). pose proof (Z.div_mod (v / B / B) B ltac:(lia)).
  assert (S3 : v / B / B / B mod B = v / B / B / B).
  { apply Z.mod_small. split; [repeat apply Z.div_pos; lia|]. repeat (apply Z.div_lt_upper_bound; [lia|]). lia. }
  rewrite S3. lia.
Qed.
(* every digest made from a field element is printable *)
Theorem from_scalar_canonical k v d : k <> GL -> 0 <= v < kq k -> from_scalar v = Ok d -> canonical k d.
Proof.
  intros Hk Hv H. assert (Q : kq k < R256) by (destruct k; reflexivity).
  destruct (from_scalar_inv v d ltac:(lia) H) as [L E]. split; [exact L|]. intros _. lia.
Qed.
