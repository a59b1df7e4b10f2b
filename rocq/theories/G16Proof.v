(* Texts of field elements are read back as written. *)
From Verif Require Import Base ListAux CodegenModel PilNumModel G16Model.
From Coq Require Import Lia.
Open Scope Z_scope.
Open Scope list_scope.
Open Scope res_scope.

Definition is_digit (r d : Z) : Prop := 0 <= d < r.

Lemma horner_app : forall r a b acc, horner r acc (a ++ b) = horner r (horner r acc a) b.
Proof. intros. apply fold_left_app. Qed.

Lemma horner_nonneg : forall r ds acc, 0 < r -> 0 <= acc -> Forall (is_digit r) ds -> 0 <= horner r acc ds.
Proof.
  intros r ds. induction ds as [|d ds IH]; intros acc Hr Ha H; [exact Ha|]. inversion H as [|? ? H1 H2]; subst. unfold is_digit in H1.
  change (0 <= horner r (acc * r + d) ds). apply IH; [exact Hr| |exact H2]. nia.
Qed.

Lemma digs_ok : forall fuel r v, 2 <= r -> 0 <= v < r ^ Z.of_nat fuel ->
  Forall (is_digit r) (digs fuel r v) /\ horner r 0 (digs fuel r v) = v /\ (v <> 0 -> exists d l, digs fuel r v = d :: l /\ d <> 0).
Proof.
  intros fuel. induction fuel as [|f IH]; intros r v Hr Hv.
  - cbn in Hv. assert (E : v = 0) by lia. subst v. cbn. repeat split; [constructor|]. intros X; congruence.
  - cbn [digs]. destruct (Z.eqb_spec v 0) as [->|Nz].
    + repeat split; [constructor|]. intros X; congruence.
    + assert (D : v = r * (v / r) + v mod r) by (apply Z.div_mod; lia).
      assert (M : 0 <= v mod r < r) by (apply Z.mod_pos_bound; lia).
      assert (Q : 0 <= v / r < r ^ Z.of_nat f).
      { split; [apply Z.div_pos; lia|]. apply Z.div_lt_upper_bound; [lia|]. rewrite Nat2Z.inj_succ, Z.pow_succ_r in Hv by lia. lia. }
      destruct (IH r (v / r) Hr Q) as [A [B C]]. split; [|split].
      * apply Forall_app. split; [exact A|]. constructor; [exact M|constructor].
      * rewrite horner_app, B. cbn. lia.
      * intros _. destruct (Z.eq_dec (v / r) 0) as [Z0|Z1].
        -- rewrite Z0. exists (v mod r), []. split; [|rewrite Z0 in D; lia]. destruct f; reflexivity.
        -- destruct (C Z1) as [d [l [E1 E2]]]. rewrite E1. exists d, (l ++ [v mod r]). split; [reflexivity|exact E2].
Qed.

Lemma fixed_ok : forall n v, 0 <= v < 16 ^ Z.of_nat n -> Forall (is_digit 16) (fixed n v) /\ horner 16 0 (fixed n v) = v /\ length (fixed n v) = n.
Proof.
  intros n. induction n as [|k IH]; intros v Hv.
  - cbn in Hv. assert (E : v = 0) by lia. subst v. cbn. repeat split. constructor.
  - cbn [fixed]. assert (D : v = 16 * (v / 16) + v mod 16) by (apply Z.div_mod; lia).
    assert (M : 0 <= v mod 16 < 16) by (apply Z.mod_pos_bound; lia).
    assert (Q : 0 <= v / 16 < 16 ^ Z.of_nat k).
    { split; [apply Z.div_pos; lia|]. apply Z.div_lt_upper_bound; [lia|]. rewrite Nat2Z.inj_succ, Z.pow_succ_r in Hv by lia. lia. }
    destruct (IH (v / 16) Q) as [A [B C]]. split; [|split].
    + apply Forall_app. split; [exact A|]. constructor; [exact M|constructor].
    + rewrite horner_app, B. cbn. lia.
    + rewrite app_length, C. cbn. lia.
Qed.

Lemma dchar_digit : forall r d, 2 <= r <= 16 -> is_digit r d -> digit r (dchar d) = Some d.
Proof.
  intros r d Hr Hd. unfold is_digit in Hd. unfold digit, dchar. destruct (Z.ltb_spec d 10) as [L|L].
  - replace ((48 <=? 48 + d) && (48 + d <=? 57)) with true.
    + replace (48 + d - 48) with d by lia. destruct (Z.ltb_spec d r) as [_|N]; [reflexivity|lia].
    + symmetry. apply andb_true_intro. split; apply Z.leb_le; lia.
  - replace ((48 <=? 87 + d) && (87 + d <=? 57)) with false.
    + replace ((97 <=? 87 + d) && (87 + d <=? 122)) with true.
      * replace (87 + d - 87) with d by lia. destruct (Z.ltb_spec d r) as [_|N]; [reflexivity|lia].
      * symmetry. apply andb_true_intro. split; apply Z.leb_le; lia.
    + symmetry. apply andb_false_intro2. apply Z.leb_gt. lia.
Qed.

Lemma dchar_range : forall d, 0 <= d < 16 -> 48 <= dchar d <= 57 \/ 97 <= dchar d <= 102.
Proof. intros d H. unfold dchar. destruct (Z.ltb_spec d 10); lia. Qed.

Lemma dchar_48 : forall d, 0 <= d < 16 -> dchar d = 48 -> d = 0.
Proof. intros d H. unfold dchar. destruct (Z.ltb_spec d 10); lia. Qed.

Lemma big_digits_ok : forall r ds acc, 2 <= r <= 16 -> Forall (is_digit r) ds -> big_digits r acc (map dchar ds) = Ok (horner r acc ds).
Proof.
  intros r ds. induction ds as [|d ds IH]; intros acc Hr H; [reflexivity|]. inversion H as [|? ? H1 H2]; subst. cbn [map big_digits].
  assert (R : 0 <= d < 16) by (unfold is_digit in H1; lia). pose proof (dchar_range d R) as Q.
  destruct (Z.eqb_spec (dchar d) 95) as [E|_]; [lia|]. rewrite (dchar_digit r d Hr H1). cbn [unwrap bind]. rewrite IH by assumption. reflexivity.
Qed.

Lemma big_parse_ok : forall r ds, 2 <= r <= 16 -> ds <> [] -> Forall (is_digit r) ds -> big_parse r (map dchar ds) = Ok (horner r 0 ds).
Proof.
  intros r ds Hr Hn H. destruct ds as [|d ds]; [congruence|]. unfold big_parse. cbn [map].
  assert (R : 0 <= d < 16) by (inversion H as [|? ? H1 H2]; subst; unfold is_digit in H1; lia). pose proof (dchar_range d R) as Q.
  destruct (Z.eqb_spec (dchar d) 43) as [E|_]; [lia|]. destruct (Z.eqb_spec (dchar d) 95) as [E|_]; [lia|].
  exact (big_digits_ok r (d :: ds) 0 Hr H).
Qed.

Lemma fuel_ok : forall r v, 2 <= r -> 0 < v -> 0 <= v < r ^ Z.of_nat (Z.to_nat (Z.log2 v + 1)).
Proof.
  intros r v Hr Hv. split; [lia|]. pose proof (Z.log2_nonneg v) as N. rewrite Z2Nat.id by lia.
  destruct (Z.log2_spec v Hv) as [_ L]. apply Z.lt_le_trans with (2 ^ (Z.log2 v + 1)); [exact L|]. apply Z.pow_le_mono_l. lia.
Qed.

(* A shown number is a list of digits with its value, without leading zeros. *)
Lemma show_ok : forall r v, 2 <= r -> 0 <= v ->
  exists ds, show_radix r v = map dchar ds /\ ds <> [] /\ Forall (is_digit r) ds /\ horner r 0 ds = v /\ (ds = [0] \/ exists d l, ds = d :: l /\ d <> 0).
Proof.
  intros r v Hr Hv. unfold show_radix. destruct (Z.eqb_spec v 0) as [->|Nz].
  - exists [0]. repeat split; [discriminate|constructor; [unfold is_digit; lia|constructor]|left; reflexivity].
  - destruct (digs_ok _ r v Hr (fuel_ok r v Hr ltac:(lia))) as [A [B C]]. destruct (C Nz) as [d [l [E F]]].
    exists (digs (Z.to_nat (Z.log2 v + 1)) r v). split; [reflexivity|]. split; [rewrite E; discriminate|]. split; [exact A|]. split; [exact B|].
    right. exists d, l. split; assumption.
Qed.

Lemma big_parse_show : forall r v, 2 <= r <= 16 -> 0 <= v -> big_parse r (show_radix r v) = Ok v.
Proof. intros r v Hr Hv. destruct (show_ok r v ltac:(lia) Hv) as [ds [E [N [D [H _]]]]]. rewrite E, big_parse_ok by assumption. now rewrite H. Qed.

(** * Without the GPU features *)

Lemma ff_digits_ok : forall q ds acc, 0 < q -> Forall (is_digit 10) ds -> ff_digits q (acc mod q) (map dchar ds) = Ok (horner 10 acc ds mod q).
Proof.
  intros q ds. induction ds as [|d ds IH]; intros acc Hq H; [reflexivity|]. inversion H as [|? ? H1 H2]; subst. cbn [map ff_digits].
  rewrite (dchar_digit 10 d) by (try assumption; lia). cbn [unwrap bind].
  replace ((acc mod q * 10 + d) mod q) with ((acc * 10 + d) mod q) by (rewrite <- Zplus_mod_idemp_l, <- Zmult_mod_idemp_l, Zplus_mod_idemp_l; reflexivity).
  rewrite IH by assumption. reflexivity.
Qed.

Lemma ff_parse_show : forall q v, 0 < q -> 0 <= v -> ff_parse q (show_radix 10 v) = Ok (v mod q).
Proof.
  intros q v Hq Hv. destruct (show_ok 10 v ltac:(lia) Hv) as [ds [E [N [D [H L]]]]]. rewrite E. destruct L as [->|[d [l [-> Nz]]]].
  - cbn in H. subst v. rewrite Z.mod_0_l by lia. reflexivity.
  - assert (R : 0 <= d < 16) by (inversion D as [|? ? H1 H2]; subst; unfold is_digit in H1; lia).
    assert (X : dchar d =? 48 = false) by (apply Z.eqb_neq; intros C; apply Nz; exact (dchar_48 d R C)).
    pose proof (ff_digits_ok q (d :: l) 0 Hq D) as F. rewrite Z.mod_0_l in F by lia. rewrite H in F. rewrite <- F.
    unfold ff_parse. destruct l as [|e l]; cbn [map]; rewrite X; reflexivity.
Qed.

Lemma starts_digit : forall d ds, 0 <= d < 10 -> Forall (is_digit 10) ds -> starts_0x (map dchar (d :: ds)) = false.
Proof.
  intros d ds Hd H. destruct ds as [|e ds]; [reflexivity|]. inversion H as [|? ? H1 H2]; subst. unfold is_digit in H1. cbn [map starts_0x].
  apply andb_false_intro2. apply Z.eqb_neq. unfold dchar. destruct (Z.ltb_spec e 10); lia.
Qed.

Lemma starts_show : forall v, 0 <= v -> starts_0x (show_radix 10 v) = false.
Proof.
  intros v Hv. destruct (show_ok 10 v ltac:(lia) Hv) as [ds [E [N [D _]]]]. rewrite E. destruct ds as [|d ds]; [congruence|].
  inversion D as [|? ? H1 H2]; subst. exact (starts_digit d ds H1 H2).
Qed.

Definition hex (digits : nat) (v : Z) : text := [48; 120] ++ map dchar (fixed digits v).

Lemma hex_value : forall n v, (0 < n)%nat -> 0 <= v < 16 ^ Z.of_nat n -> big_parse 16 (skipn 2 (hex n v)) = Ok v.
Proof.
  intros n v Hn Hv. destruct (fixed_ok n v Hv) as [A [B C]]. unfold hex. cbn [skipn app].
  rewrite big_parse_ok; [rewrite B; reflexivity|lia| |exact A]. intros X. rewrite X in C. cbn in C. lia.
Qed.

Lemma read_decimal : forall q v, 0 < q -> 0 <= v -> render_str_to_scalar q (show_radix 10 v) = Ok (v mod q).
Proof. intros q v Hq Hv. unfold render_str_to_scalar. rewrite starts_show by exact Hv. exact (ff_parse_show q v Hq Hv). Qed.

Lemma read_hex : forall q n v, 0 < q -> (0 < n)%nat -> 0 <= v < 16 ^ Z.of_nat n -> render_str_to_scalar q (hex n v) = Ok (v mod q).
Proof.
  intros q n v Hq Hn Hv. unfold render_str_to_scalar. change (starts_0x (hex n v)) with true. cbv iota. rewrite (hex_value n v Hn Hv). cbn [bind].
  apply ff_parse_show; [exact Hq|lia].
Qed.

Lemma pow_limbs : forall limbs, 2 ^ (64 * Z.of_nat limbs) = 16 ^ Z.of_nat (16 * limbs).
Proof. intros. change 16 with (2 ^ 4) at 1. rewrite <- Z.pow_mul_r by lia. f_equal. lia. Qed.

Theorem scalar_text : forall limbs q v to_hex, (0 < limbs)%nat -> 0 <= v < q -> q <= 2 ^ (64 * Z.of_nat limbs) ->
  exists t, render_scalar_to_str limbs v to_hex = Ok t /\ render_str_to_scalar q t = Ok v /\ (to_hex = false -> t = show_radix 10 v) /\ (to_hex = true -> t = hex (16 * limbs) v).
Proof.
  intros limbs q v to_hex Hn Hv Hq. assert (Hl : (0 < 16 * limbs)%nat) by lia.
  rewrite pow_limbs in Hq. assert (Hv' : 0 <= v < 16 ^ Z.of_nat (16 * limbs)) by lia.
  unfold render_scalar_to_str, repr_to_big. change (show_repr limbs v) with (hex (16 * limbs) v). destruct to_hex.
  - exists (hex (16 * limbs) v). split; [reflexivity|]. split; [|split; [discriminate|reflexivity]].
    rewrite read_hex by (try assumption; lia). now rewrite Z.mod_small by exact Hv.
  - exists (show_radix 10 v). rewrite (hex_value _ v Hl Hv'). cbn [bind]. split; [reflexivity|]. split; [|split; [reflexivity|discriminate]].
    rewrite read_decimal by lia. now rewrite Z.mod_small by exact Hv.
Qed.

(** * With the GPU features *)

Lemma hex_decode_ok : forall ds acc, Forall (is_digit 16) ds -> hex_decode acc (map dchar ds) = Ok (horner 16 acc ds).
Proof.
  intros ds. induction ds as [|d ds IH]; intros acc H; [reflexivity|]. inversion H as [|? ? H1 H2]; subst. cbn [map hex_decode].
  rewrite (dchar_digit 16 d) by (try assumption; lia). cbn [unwrap bind]. rewrite IH by assumption. reflexivity.
Qed.

Lemma horner_ge : forall r ds acc, 1 <= r -> 0 <= acc -> Forall (is_digit r) ds -> acc * r ^ Z.of_nat (length ds) <= horner r acc ds.
Proof.
  intros r ds. induction ds as [|d ds IH]; intros acc Hr Ha H.
  - cbn. lia.
  - inversion H as [|? ? H1 H2]; subst. unfold is_digit in H1. cbn [length]. rewrite Nat2Z.inj_succ, Z.pow_succ_r by lia.
    change (horner r acc (d :: ds)) with (horner r (acc * r + d) ds). pose proof (IH (acc * r + d) Hr ltac:(nia) H2) as L.
    assert (0 <= r ^ Z.of_nat (length ds)) by (apply Z.pow_nonneg; lia). nia.
Qed.

(* Without leading zeros, a number below r^n has at most n digits. *)
Lemma show_len : forall r v n, 2 <= r -> 0 <= v < r ^ Z.of_nat n -> (0 < n)%nat -> (length (show_radix r v) <= n)%nat.
Proof.
  intros r v n Hr Hv Hn. destruct (show_ok r v Hr ltac:(lia)) as [ds [E [N [D [H L]]]]]. rewrite E, map_length.
  destruct L as [->|[d [l [-> Nz]]]]; [exact Hn|]. assert (H1 : is_digit r d) by (inversion D; assumption).
  cbn [length]. destruct (Nat.le_gt_cases (S (length l)) n) as [G|G]; [exact G|exfalso].
  change (horner r 0 (d :: l)) with (horner r (0 * r + d) l) in H.
  assert (D1 : 1 <= d) by (unfold is_digit in H1; lia).
  pose proof (horner_ge r l (0 * r + d) ltac:(lia) ltac:(lia) ltac:(inversion D; assumption)) as B. rewrite H in B.
  assert (r ^ Z.of_nat n <= r ^ Z.of_nat (length l)) by (apply Z.pow_le_mono_r; lia). nia.
Qed.

Definition padded (h : list Z) : list Z := if Nat.eqb (Nat.modulo (length h) 2) 0 then h else 48 :: h.

Lemma padded_len : forall h n, (length h <= 2 * n)%nat -> (Nat.div (length (padded h)) 2 <= n)%nat.
Proof.
  intros h n H. unfold padded. pose proof (Nat.div_mod (length h) 2 ltac:(lia)) as D. pose proof (Nat.mod_upper_bound (length h) 2 ltac:(lia)) as M.
  destruct (Nat.eqb_spec (Nat.modulo (length h) 2) 0) as [E|E].
  - apply Nat.div_le_upper_bound; lia.
  - cbn [length]. apply Nat.div_le_upper_bound; [lia|]. lia.
Qed.

Lemma padded_value : forall ds, Forall (is_digit 16) ds -> hex_decode 0 (padded (map dchar ds)) = Ok (horner 16 0 ds).
Proof.
  intros ds H. unfold padded. destruct (Nat.eqb _ _).
  - exact (hex_decode_ok ds 0 H).
  - change (48 :: map dchar ds) with (map dchar (0 :: ds)). rewrite hex_decode_ok; [reflexivity|]. constructor; [unfold is_digit; lia|exact H].
Qed.

Lemma fp_decimal : forall bytes q v, (0 < bytes)%nat -> q <= 256 ^ Z.of_nat bytes -> 0 <= v ->
  render_str_to_fp bytes q (show_radix 10 v) = if v <? q then Ok v else Panic.
Proof.
  intros bytes q v Hb Hq Hv. unfold render_str_to_fp. rewrite starts_show by exact Hv. cbv iota. rewrite big_parse_show by lia. cbn [bind].
  cbv zeta. fold (padded (show_radix 16 v)).
  destruct (show_ok 16 v ltac:(lia) Hv) as [ds [E [N [D [H _]]]]].
  assert (V : hex_decode 0 (padded (show_radix 16 v)) = Ok v) by (rewrite E, padded_value by exact D; now rewrite H).
  rewrite V. cbn [bind]. destruct (Z.ltb_spec v q) as [L|L]; [|destruct (Nat.leb _ _); reflexivity].
  replace (Nat.leb _ _) with true; [reflexivity|]. symmetry. apply Nat.leb_le, padded_len. apply show_len; [lia| |lia].
  split; [exact Hv|]. rewrite Nat2Z.inj_mul, Z.pow_mul_r by lia. change (16 ^ Z.of_nat 2) with 256. lia.
Qed.

Lemma fp_hex : forall bytes q v, 0 <= v < 16 ^ Z.of_nat (2 * bytes) -> render_str_to_fp bytes q (hex (2 * bytes) v) = if v <? q then Ok v else Panic.
Proof.
  intros bytes q v Hv. unfold render_str_to_fp. change (starts_0x (hex (2 * bytes) v)) with true. cbv iota. cbn [bind].
  change (skipn 2 (hex (2 * bytes) v)) with (map dchar (fixed (2 * bytes) v)).
  set (n := (2 * bytes)%nat) in *. destruct (fixed_ok n v Hv) as [A [B C]].
  cbv zeta. fold (padded (map dchar (fixed n v))).
  rewrite padded_value by exact A. cbn [bind]. rewrite B.
  replace (Nat.leb _ _) with true; [reflexivity|]. symmetry. apply Nat.leb_le, padded_len. rewrite map_length, C. unfold n. lia.
Qed.

Theorem fp_text : forall bytes q v to_hex, (0 < bytes)%nat -> 0 <= v < q -> q <= 256 ^ Z.of_nat bytes ->
  exists t, render_fp_to_str bytes v to_hex = Ok t /\ render_str_to_fp bytes q t = Ok v /\ (to_hex = false -> t = show_radix 10 v) /\ (to_hex = true -> t = hex (2 * bytes) v).
Proof.
  intros bytes q v to_hex Hb Hv Hq.
  assert (Hv' : 0 <= v < 16 ^ Z.of_nat (2 * bytes)) by (rewrite Nat2Z.inj_mul, Z.pow_mul_r by lia; change (16 ^ Z.of_nat 2) with 256; lia).
  assert (L : v <? q = true) by (apply Z.ltb_lt; lia).
  unfold render_fp_to_str, repr_to_big. change ([48; 120] ++ map dchar (fixed (2 * bytes) v)) with (hex (2 * bytes) v). destruct to_hex.
  - exists (hex (2 * bytes) v). split; [reflexivity|]. split; [|split; [discriminate|reflexivity]]. rewrite fp_hex by exact Hv'. now rewrite L.
  - exists (show_radix 10 v). rewrite hex_value by (try exact Hv'; lia). cbn [bind]. split; [reflexivity|]. split; [|split; [reflexivity|discriminate]].
    rewrite fp_decimal by (try assumption; lia). now rewrite L.
Qed.

Lemma hex_decode_nonneg : forall l acc v, 0 <= acc -> hex_decode acc l = Ok v -> 0 <= v.
Proof.
  intros l. induction l as [|c l IH]; intros acc v Ha H; [injection H as <-; exact Ha|]. cbn [hex_decode] in H. destruct (digit 16 c) as [d|] eqn:E; [|discriminate].
  cbn [unwrap bind] in H. apply IH in H; [exact H|]. enough (0 <= d) by lia. clear - E. unfold digit in E.
  repeat match type of E with context [if ?b then _ else _] => let X := fresh in destruct b eqn:X end; try discriminate; injection E as <-;
    repeat match goal with X : _ && _ = true |- _ => apply andb_prop in X; destruct X as [X ?]; apply Z.leb_le in X end; lia.
Qed.

Theorem fp_canonical : forall bytes q t v, render_str_to_fp bytes q t = Ok v -> 0 <= v < q.
Proof.
  intros bytes q t v H. unfold render_str_to_fp in H. apply bind_ok in H. destruct H as [h [_ H]]. apply bind_ok in H. destruct H as [w [E H]].
  destruct (Nat.leb _ _); [|discriminate]. destruct (Z.ltb_spec w q) as [L|L]; [|discriminate]. injection H as <-. split; [|exact L].
  exact (hex_decode_nonneg _ _ _ (Z.le_refl 0) E).
Qed.

(** * Keys and proofs *)

Section Files.
  Variables (P1 P2 : Type) (xy1 : P1 -> Z * Z) (xy2 : P2 -> (Z * Z) * (Z * Z)) (mk1 : Z -> Z -> P1) (mk2 : Z * Z -> Z * Z -> P2).
  Variables (show : Z -> res text) (read : text -> res Z) (q : Z).
  Hypothesis back : forall v, 0 <= v < q -> exists t, show v = Ok t /\ read t = Ok v.
  (* a point whose coordinates are field elements and determine it *)
  Definition point1 (p : P1) : Prop := (0 <= fst (xy1 p) < q) /\ (0 <= snd (xy1 p) < q) /\ mk1 (fst (xy1 p)) (snd (xy1 p)) = p.
  Definition point2 (p : P2) : Prop :=
    (0 <= fst (fst (xy2 p)) < q) /\ (0 <= snd (fst (xy2 p)) < q) /\ (0 <= fst (snd (xy2 p)) < q) /\ (0 <= snd (snd (xy2 p)) < q) /\ mk2 (fst (xy2 p)) (snd (xy2 p)) = p.
  Definition key_points (k : vkey P1 P2) : Prop :=
    point1 (vk_alpha1 _ _ k) /\ point1 (vk_beta1 _ _ k) /\ point2 (vk_beta2 _ _ k) /\ point2 (vk_gamma2 _ _ k) /\ point1 (vk_delta1 _ _ k) /\ point2 (vk_delta2 _ _ k) /\ Forall point1 (vk_ic _ _ k).
  Definition proof_points (p : proof P1 P2) : Prop := point1 (pf_a _ _ p) /\ point2 (pf_b _ _ p) /\ point1 (pf_c _ _ p).

  Lemma g1_back : forall p, point1 p -> exists g, parse_g1_json P1 xy1 show p = Ok g /\ to_g1 P1 mk1 read g = Ok p.
  Proof.
    intros p [Hx [Hy Hm]]. unfold parse_g1_json. destruct (xy1 p) as [x y]. cbn [fst snd] in *.
    destruct (back x Hx) as [a [A1 A2]]. destruct (back y Hy) as [b [B1 B2]]. exists (mkG1 a b). rewrite A1. cbn [bind]. rewrite B1. cbn [bind].
    split; [reflexivity|]. unfold to_g1. cbn [g1_x g1_y]. rewrite A2. cbn [bind]. rewrite B2. cbn [bind]. now rewrite Hm.
  Qed.

  Lemma g2_back : forall p, point2 p -> exists g, parse_g2_json P2 xy2 show p = Ok g /\ to_g2 P2 mk2 read g = Ok p.
  Proof.
    intros p [Hx [Hy [Hz [Hw Hm]]]]. unfold parse_g2_json. destruct (xy2 p) as [[x y] [z w]]. cbn [fst snd] in *.
    destruct (back x Hx) as [a [A1 A2]]. destruct (back y Hy) as [b [B1 B2]]. destruct (back z Hz) as [c [C1 C2]]. destruct (back w Hw) as [d [D1 D2]].
    exists (mkG2 (a, b) (c, d)). rewrite A1. cbn [bind]. rewrite B1. cbn [bind]. rewrite C1. cbn [bind]. rewrite D1. cbn [bind].
    split; [reflexivity|]. unfold to_g2. cbn [g2_x g2_y fst snd]. rewrite A2. cbn [bind]. rewrite B2. cbn [bind]. rewrite C2. cbn [bind]. rewrite D2. cbn [bind]. now rewrite Hm.
  Qed.

  Lemma g1s_back : forall l, Forall point1 l -> exists g, mapM (parse_g1_json P1 xy1 show) l = Ok g /\ mapM (to_g1 P1 mk1 read) g = Ok l.
  Proof.
    intros l H. induction H as [|p l H1 _ [g [G1 G2]]]; [exists []; split; reflexivity|]. destruct (g1_back p H1) as [a [A1 A2]].
    exists (a :: g). cbn [mapM]. rewrite A1. cbn [bind]. rewrite G1. cbn [bind]. split; [reflexivity|]. rewrite A2. cbn [bind]. rewrite G2. reflexivity.
  Qed.

  Theorem key_file : forall k, key_points k -> exists f, serialize_vk P1 P2 xy1 xy2 show k = Ok f /\ to_verification_key P1 P2 mk1 mk2 read f = Ok k.
  Proof.
    intros [a b c d e f l] [H1 [H2 [H3 [H4 [H5 [H6 H7]]]]]]. cbn in H1, H2, H3, H4, H5, H6, H7.
    destruct (g1_back a H1) as [a' [A1 A2]]. destruct (g1_back b H2) as [b' [B1 B2]]. destruct (g2_back c H3) as [c' [C1 C2]]. destruct (g2_back d H4) as [d' [D1 D2]].
    destruct (g1_back e H5) as [e' [E1 E2]]. destruct (g2_back f H6) as [f' [F1 F2]]. destruct (g1s_back l H7) as [l' [L1 L2]].
    exists (mkVF a' b' c' d' e' f' l'). unfold serialize_vk, to_verification_key. cbn [vk_alpha1 vk_beta1 vk_beta2 vk_gamma2 vk_delta1 vk_delta2 vk_ic vf_alpha1 vf_beta1 vf_beta2 vf_gamma2 vf_delta1 vf_delta2 vf_ic].
    rewrite A1, A2. cbn [bind]. rewrite B1, B2. cbn [bind]. rewrite C1, C2. cbn [bind]. rewrite D1, D2. cbn [bind]. rewrite E1, E2. cbn [bind]. rewrite F1, F2. cbn [bind]. rewrite L1, L2. split; reflexivity.
  Qed.

  Theorem proof_file : forall p, proof_points p -> exists f, serialize_proof P1 P2 xy1 xy2 show p = Ok f /\ to_proof P1 P2 mk1 mk2 read f = Ok p.
  Proof.
    intros [a b c] [H1 [H2 H3]]. cbn in H1, H2, H3.
    destruct (g1_back a H1) as [a' [A1 A2]]. destruct (g2_back b H2) as [b' [B1 B2]]. destruct (g1_back c H3) as [c' [C1 C2]].
    exists (mkPF a' b' c'). unfold serialize_proof, to_proof. cbn [pf_a pf_b pf_c ff_a ff_b ff_c].
    rewrite A1, A2. cbn [bind]. rewrite B1, B2. cbn [bind]. rewrite C1, C2. split; reflexivity.
  Qed.
End Files.

(** * The same in terms of digits *)

Definition number (r : Z) (ds : list Z) : Z := fold_left (fun a d => r * a + d) ds 0.
Definition decimal (ds : list Z) : text := map (fun d => 48 + d) ds.
Definition no_leading_zero (ds : list Z) : Prop := match ds with [] => False | d :: l => d = 0 -> l = [] end.

Lemma number_eq : forall r ds, number r ds = horner r 0 ds.
Proof.
  intros r ds. unfold number, horner. generalize 0. induction ds as [|d ds IH]; intros a; [reflexivity|]. cbn [fold_left].
  rewrite (Z.mul_comm r a). apply IH.
Qed.

Lemma decimal_eq : forall ds, Forall (is_digit 10) ds -> decimal ds = map dchar ds.
Proof.
  intros ds H. unfold decimal. apply map_ext_in. intros d Hd. rewrite Forall_forall in H. specialize (H d Hd). unfold is_digit in H. unfold dchar.
  destruct (Z.ltb_spec d 10); lia.
Qed.

Theorem scalar_written : forall limbs q v to_hex, (0 < limbs)%nat -> 0 <= v < q -> q <= 2 ^ (64 * Z.of_nat limbs) ->
  exists t ds, render_scalar_to_str limbs v to_hex = Ok t /\ render_str_to_scalar q t = Ok v /\
    (if to_hex then t = [48; 120] ++ map dchar ds /\ length ds = (16 * limbs)%nat /\ Forall (is_digit 16) ds /\ number 16 ds = v
     else t = decimal ds /\ no_leading_zero ds /\ Forall (is_digit 10) ds /\ number 10 ds = v).
Proof.
  intros limbs q v to_hex Hl Hv Hq. destruct (scalar_text limbs q v to_hex Hl Hv Hq) as [t [A [B [C D]]]]. rewrite pow_limbs in Hq. destruct to_hex.
  - exists t, (fixed (16 * limbs) v). assert (Hv' : 0 <= v < 16 ^ Z.of_nat (16 * limbs)) by lia. set (n := (16 * limbs)%nat) in *. destruct (fixed_ok n v Hv') as [E [F G]].
    split; [exact A|]. split; [exact B|]. split; [exact (D eq_refl)|]. split; [exact G|]. split; [exact E|]. rewrite number_eq. exact F.
  - destruct (show_ok 10 v ltac:(lia) ltac:(lia)) as [ds [E [N [F [G H]]]]]. exists t, ds. split; [exact A|]. split; [exact B|].
    rewrite decimal_eq by exact F. split; [rewrite (C eq_refl); exact E|]. split; [|split; [exact F|rewrite number_eq; exact G]].
    destruct H as [->|[d [l [-> Nz]]]]; [intros _; reflexivity|intros X; congruence].
Qed.

Theorem scalar_read : forall q ds, 0 < q -> Forall (is_digit 10) ds ->
  (no_leading_zero ds -> render_str_to_scalar q (decimal ds) = Ok (number 10 ds mod q)) /\ (~ no_leading_zero ds -> render_str_to_scalar q (decimal ds) = Panic).
Proof.
  intros q ds Hq D. rewrite decimal_eq by exact D. destruct ds as [|d l].
  - split; [intros []|reflexivity].
  - assert (D1 : is_digit 10 d) by (inversion D; assumption). assert (D2 : Forall (is_digit 10) l) by (inversion D; assumption).
    unfold render_str_to_scalar. rewrite (starts_digit d l D1 D2). cbv iota. cbn [no_leading_zero].
    pose proof (ff_digits_ok q (d :: l) 0 Hq D) as F. rewrite Z.mod_0_l in F by lia. rewrite <- number_eq in F.
    assert (R : 0 <= d < 16) by (unfold is_digit in D1; lia).
    destruct (Z.eq_dec d 0) as [->|Nz].
    + split.
      * intros H. rewrite (H eq_refl). change (Ok 0 = Ok (0 mod q)). rewrite Z.mod_0_l by lia. reflexivity.
      * intros H. destruct l as [|e l]; [destruct H; reflexivity|]. reflexivity.
    + assert (X : dchar d =? 48 = false) by (apply Z.eqb_neq; intros C; apply Nz; exact (dchar_48 d R C)).
      split; [intros _|intros H; destruct H; intros C; congruence]. rewrite <- F. unfold ff_parse. destruct l as [|e l]; cbn [map]; rewrite X; reflexivity.
Qed.

Theorem scalar_alias : forall q v, 0 < q -> 0 <= v < q -> exists t t', t <> t' /\ render_str_to_scalar q t = Ok v /\ render_str_to_scalar q t' = Ok v.
Proof.
  intros q v Hq Hv. exists (show_radix 10 v), (show_radix 10 (v + q)). split; [|split].
  - intros E. pose proof (big_parse_show 10 v ltac:(lia) ltac:(lia)) as A. pose proof (big_parse_show 10 (v + q) ltac:(lia) ltac:(lia)) as B.
    rewrite E, B in A. injection A as A. lia.
  - rewrite read_decimal by lia. now rewrite Z.mod_small by exact Hv.
  - rewrite read_decimal by lia. rewrite <- (Z.mul_1_l q) at 1. rewrite Z.mod_add by lia. now rewrite Z.mod_small by exact Hv.
Qed.

Theorem fp_written : forall bytes q v to_hex, (0 < bytes)%nat -> 0 <= v < q -> q <= 256 ^ Z.of_nat bytes ->
  exists t ds, render_fp_to_str bytes v to_hex = Ok t /\ render_str_to_fp bytes q t = Ok v /\
    (if to_hex then t = [48; 120] ++ map dchar ds /\ length ds = (2 * bytes)%nat /\ Forall (is_digit 16) ds /\ number 16 ds = v
     else t = decimal ds /\ no_leading_zero ds /\ Forall (is_digit 10) ds /\ number 10 ds = v).
Proof.
  intros bytes q v to_hex Hl Hv Hq. destruct (fp_text bytes q v to_hex Hl Hv Hq) as [t [A [B [C D]]]].
  assert (Hv' : 0 <= v < 16 ^ Z.of_nat (2 * bytes)) by (rewrite Nat2Z.inj_mul, Z.pow_mul_r by lia; change (16 ^ Z.of_nat 2) with 256; lia). destruct to_hex.
  - exists t, (fixed (2 * bytes) v). set (n := (2 * bytes)%nat) in *. destruct (fixed_ok n v Hv') as [E [F G]].
    split; [exact A|]. split; [exact B|]. split; [exact (D eq_refl)|]. split; [exact G|]. split; [exact E|]. rewrite number_eq. exact F.
  - destruct (show_ok 10 v ltac:(lia) ltac:(lia)) as [ds [E [N [F [G H]]]]]. exists t, ds. split; [exact A|]. split; [exact B|].
    rewrite decimal_eq by exact F. split; [rewrite (C eq_refl); exact E|]. split; [|split; [exact F|rewrite number_eq; exact G]].
    destruct H as [->|[d [l [-> Nz]]]]; [intros _; reflexivity|intros X; congruence].
Qed.

Lemma horner_lt : forall r ds, 2 <= r -> Forall (is_digit r) ds -> 0 <= horner r 0 ds < r ^ Z.of_nat (length ds).
Proof.
  intros r ds Hr. assert (G : forall ds acc, 0 <= acc -> Forall (is_digit r) ds -> horner r acc ds < (acc + 1) * r ^ Z.of_nat (length ds)).
  { clear ds. intros ds. induction ds as [|d ds IH]; intros acc Ha H; [cbn; lia|]. inversion H as [|? ? H1 H2]; subst. unfold is_digit in H1.
    cbn [length]. rewrite Nat2Z.inj_succ, Z.pow_succ_r by lia. change (horner r acc (d :: ds)) with (horner r (acc * r + d) ds).
    pose proof (IH (acc * r + d) ltac:(nia) H2) as L. assert (0 <= r ^ Z.of_nat (length ds)) by (apply Z.pow_nonneg; lia). nia. }
  intros H. split; [apply horner_nonneg; [lia|lia|exact H]|]. pose proof (G ds 0 ltac:(lia) H). lia.
Qed.

Theorem fp_read : forall bytes q ds, (0 < bytes)%nat -> q <= 256 ^ Z.of_nat bytes -> ds <> [] -> Forall (is_digit 10) ds ->
  render_str_to_fp bytes q (decimal ds) = if number 10 ds <? q then Ok (number 10 ds) else Panic.
Proof.
  intros bytes q ds Hb Hq N D. rewrite decimal_eq by exact D. destruct ds as [|d l]; [congruence|].
  assert (D1 : is_digit 10 d) by (inversion D; assumption). assert (D2 : Forall (is_digit 10) l) by (inversion D; assumption).
  rewrite <- (fp_decimal bytes q (number 10 (d :: l)) Hb Hq) by (rewrite number_eq; apply horner_lt; [lia|exact D]).
  assert (V : 0 <= number 10 (d :: l)) by (rewrite number_eq; apply horner_lt; [lia|exact D]).
  unfold render_str_to_fp. rewrite (starts_digit d l D1 D2), starts_show by exact V. cbv iota.
  rewrite (big_parse_show 10) by (try exact V; lia). rewrite big_parse_ok by (try assumption; lia). rewrite <- number_eq. reflexivity.
Qed.

(* The two readers agree on what either writes. *)
Theorem readers_agree : forall limbs q v to_hex, (0 < limbs)%nat -> 0 <= v < q -> q <= 2 ^ (64 * Z.of_nat limbs) ->
  exists t, render_scalar_to_str limbs v to_hex = Ok t /\ render_fp_to_str (8 * limbs) v to_hex = Ok t /\ render_str_to_scalar q t = Ok v /\ render_str_to_fp (8 * limbs) q t = Ok v.
Proof.
  intros limbs q v to_hex Hl Hv Hq. destruct (scalar_text limbs q v to_hex Hl Hv Hq) as [t [A [B [C D]]]].
  assert (Q : q <= 256 ^ Z.of_nat (8 * limbs)) by (change 256 with (2 ^ 8); rewrite <- Z.pow_mul_r by lia; replace (8 * Z.of_nat (8 * limbs)) with (64 * Z.of_nat limbs) by lia; exact Hq).
  destruct (fp_text (8 * limbs) q v to_hex ltac:(lia) Hv Q) as [t' [A' [B' [C' D']]]].
  assert (E : t = t'). { destruct to_hex; [rewrite (D eq_refl), (D' eq_refl); f_equal; lia|rewrite (C eq_refl), (C' eq_refl); reflexivity]. }
  subst t'. exists t. exact (conj A (conj A' (conj B B'))).
Qed.

Theorem empty_hex : forall bytes q, (0 < bytes)%nat -> 10 < q ->
  render_str_to_fp bytes q [48; 120] = Ok 0 /\ render_str_to_scalar q [48; 120] = Panic /\ render_str_to_fp bytes q [43; 49; 95; 48] = Ok 10 /\ render_str_to_scalar q [43; 49; 95; 48] = Panic.
Proof.
  intros bytes q Hb Hq. split; [|split; [reflexivity|split; [|reflexivity]]].
  - unfold render_str_to_fp. cbn. destruct (Z.ltb_spec 0 q) as [_|L]; [reflexivity|lia].
  - unfold render_str_to_fp. change (big_parse 10 [43; 49; 95; 48]) with (@Ok Z 10). cbn [starts_0x andb Z.eqb Pos.eqb bind]. change (show_radix 16 10) with [97]. cbn [length Nat.modulo Nat.eqb].
    change (hex_decode 0 _) with (@Ok Z 10). cbn [bind]. destruct bytes as [|b]; [lia|]. change (Nat.leb _ (S b)) with true. cbv iota. destruct (Z.ltb_spec 10 q) as [_|L]; [reflexivity|lia].
Qed.

(* A public input is read back as the scalars that were written. *)
Theorem inputs_text : forall limbs q l to_hex, (0 < limbs)%nat -> q <= 2 ^ (64 * Z.of_nat limbs) -> Forall (fun v => 0 <= v < q) l ->
  exists ts, mapM (fun v => render_scalar_to_str limbs v to_hex) l = Ok ts /\ to_public_input q ts = Ok l.
Proof.
  intros limbs q l to_hex Hl Hq H. induction H as [|v l H1 _ [ts [A B]]]; [exists []; split; reflexivity|].
  destruct (scalar_text limbs q v to_hex Hl H1 Hq) as [t [C [D _]]]. exists (t :: ts). cbn [mapM]. rewrite C. cbn [bind]. rewrite A. cbn [bind].
  split; [reflexivity|]. unfold to_public_input in *. cbn [mapM]. rewrite D. cbn [bind]. rewrite B. reflexivity.
Qed.

(** * Points at infinity *)

Section Infinity.
  Variables (P1 P2 : Type) (mk1 : Z -> Z -> P1) (mk2 : Z * Z -> Z * Z -> P2) (inf1 : P1 -> bool) (inf2 : P2 -> bool) (read : text -> res Z).
  Hypothesis fin1 : forall x y, inf1 (mk1 x y) = false.
  Hypothesis fin2 : forall x y, inf2 (mk2 x y) = false.

  Lemma g1_finite : forall g p, to_g1 P1 mk1 read g = Ok p -> inf1 p = false.
  Proof. intros g p H. unfold to_g1 in H. apply bind_ok in H. destruct H as [x [_ H]]. apply bind_ok in H. destruct H as [y [_ H]]. injection H as <-. apply fin1. Qed.
  Lemma g2_finite : forall g p, to_g2 P2 mk2 read g = Ok p -> inf2 p = false.
  Proof.
    intros g p H. unfold to_g2 in H. apply bind_ok in H. destruct H as [x [_ H]]. apply bind_ok in H. destruct H as [y [_ H]].
    apply bind_ok in H. destruct H as [z [_ H]]. apply bind_ok in H. destruct H as [w [_ H]]. injection H as <-. apply fin2.
  Qed.

  Theorem key_finite : forall f k, to_verification_key P1 P2 mk1 mk2 read f = Ok k -> Forall (fun p => inf1 p = false) (vk_ic _ _ k) /\ inf1 (vk_alpha1 _ _ k) = false.
  Proof.
    intros f k H. unfold to_verification_key in H. apply bind_ok in H. destruct H as [a [A H]]. apply bind_ok in H. destruct H as [b [_ H]].
    apply bind_ok in H. destruct H as [c [_ H]]. apply bind_ok in H. destruct H as [d [_ H]]. apply bind_ok in H. destruct H as [e [_ H]].
    apply bind_ok in H. destruct H as [g [_ H]]. apply bind_ok in H. destruct H as [l [L H]]. injection H as <-. cbn [vk_ic vk_alpha1].
    split; [|exact (g1_finite _ _ A)]. revert l L. induction (vf_ic f) as [|x xs IH]; intros l L; cbn [mapM] in L.
    - injection L as <-. constructor.
    - apply bind_ok in L. destruct L as [y [Y L]]. apply bind_ok in L. destruct L as [ys [YS L]]. injection L as <-.
      constructor; [exact (g1_finite _ _ Y)|exact (IH _ YS)].
  Qed.

  Theorem proof_finite : forall f p, to_proof P1 P2 mk1 mk2 read f = Ok p -> inf1 (pf_a _ _ p) = false /\ inf2 (pf_b _ _ p) = false /\ inf1 (pf_c _ _ p) = false.
  Proof.
    intros f p H. unfold to_proof in H. apply bind_ok in H. destruct H as [a [A H]]. apply bind_ok in H. destruct H as [b [B H]].
    apply bind_ok in H. destruct H as [c [C H]]. injection H as <-. cbn. exact (conj (g1_finite _ _ A) (conj (g2_finite _ _ B) (g1_finite _ _ C))).
  Qed.
End Infinity.

(** * Either form of text *)

Definition texts (show : Z -> res text) (read : text -> res Z) (q : Z) : Prop :=
  (exists limbs to_hex, (0 < limbs)%nat /\ q <= 2 ^ (64 * Z.of_nat limbs) /\ show = (fun v => render_scalar_to_str limbs v to_hex) /\ read = render_str_to_scalar q) \/
  (exists bytes to_hex, (0 < bytes)%nat /\ q <= 256 ^ Z.of_nat bytes /\ show = (fun v => render_fp_to_str bytes v to_hex) /\ read = render_str_to_fp bytes q).

Lemma texts_back : forall show read q, texts show read q -> forall v, 0 <= v < q -> exists t, show v = Ok t /\ read t = Ok v.
Proof.
  intros show read q H v Hv. destruct H as [[n [h [A [B [-> ->]]]]]|[n [h [A [B [-> ->]]]]]].
  - destruct (scalar_text n q v h A Hv B) as [t [C [D _]]]. exists t. exact (conj C D).
  - destruct (fp_text n q v h A Hv B) as [t [C [D _]]]. exists t. exact (conj C D).
Qed.
Theorem key_texts : forall P1 P2 xy1 xy2 mk1 mk2 show read q, texts show read q -> forall k, key_points P1 P2 xy1 xy2 mk1 mk2 q k ->
  exists f, serialize_vk P1 P2 xy1 xy2 show k = Ok f /\ to_verification_key P1 P2 mk1 mk2 read f = Ok k.
Proof. intros P1 P2 xy1 xy2 mk1 mk2 show read q H k K. exact (key_file P1 P2 xy1 xy2 mk1 mk2 show read q (texts_back show read q H) k K). Qed.
Theorem proof_texts : forall P1 P2 xy1 xy2 mk1 mk2 show read q, texts show read q -> forall p, proof_points P1 P2 xy1 xy2 mk1 mk2 q p ->
  exists f, serialize_proof P1 P2 xy1 xy2 show p = Ok f /\ to_proof P1 P2 mk1 mk2 read f = Ok p.
Proof. intros P1 P2 xy1 xy2 mk1 mk2 show read q H k K. exact (proof_file P1 P2 xy1 xy2 mk1 mk2 show read q (texts_back show read q H) k K). Qed.
Theorem proof_infinite : forall P1 P2 (mk1 : Z -> Z -> P1) (mk2 : Z * Z -> Z * Z -> P2) (inf1 : P1 -> bool) (inf2 : P2 -> bool) read,
  (forall x y, inf1 (mk1 x y) = false) -> (forall x y, inf2 (mk2 x y) = false) -> forall f p, inf1 (pf_a _ _ p) = true \/ inf2 (pf_b _ _ p) = true \/ inf1 (pf_c _ _ p) = true ->
  to_proof P1 P2 mk1 mk2 read f <> Ok p.
Proof.
  intros P1 P2 mk1 mk2 inf1 inf2 read A B f p H E. destruct (proof_finite P1 P2 mk1 mk2 inf1 inf2 read A B f p E) as [X [Y Z]].
  destruct H as [H|[H|H]]; congruence.
Qed.
