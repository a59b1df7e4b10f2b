From Verif Require Import Base GlModel GlProof AvxModel.
Open Scope Z_scope.

Local Notation P := 18446744069414584321 (only parsing).
Definition u64 (x : Z) : Prop := 0 <= x < 18446744073709551616.

Lemma W_eq : W = 18446744073709551616. Proof. reflexivity. Qed.
Lemma H_eq : H32 = 4294967296. Proof. reflexivity. Qed.

(** * Single lanes *)

Lemma xor_sign x : u64 x -> Z.lxor x SIGN_BIT = if x <? 9223372036854775808 then x + 9223372036854775808 else x - 9223372036854775808.
Proof.
  intros B. unfold u64 in B. change SIGN_BIT with (2 ^ 63).
  assert (D : forall y, 0 <= y < 9223372036854775808 -> Z.lxor y (2 ^ 63) = y + 9223372036854775808).
  { intros y Y. rewrite <- Z.add_nocarry_lxor; [reflexivity|].
    apply Z.bits_inj'. intros n N. rewrite Z.bits_0, Z.land_spec.
    destruct (Z.eq_dec n 63) as [->|E].
    - replace (Z.testbit y 63) with false; [reflexivity|]. symmetry.
      destruct (Z.eq_dec y 0) as [->|Z0]; [apply Z.bits_0|].
      apply Z.bits_above_log2; [lia|]. apply Z.log2_lt_pow2; [lia|]. change (2 ^ 63) with 9223372036854775808. lia.
    - rewrite Z.pow2_bits_false by lia. apply andb_false_r. }
  destruct (Z.ltb_spec x 9223372036854775808) as [L|L].
  - apply D. lia.
  - assert (E : x = Z.lxor (x - 9223372036854775808) (2 ^ 63)) by (rewrite D by lia; lia).
    rewrite E at 1. rewrite Z.lxor_assoc, Z.lxor_nilpotent, Z.lxor_0_r. reflexivity.
Qed.

Definition sh (x : Z) : Z := if x <? 9223372036854775808 then x + 9223372036854775808 else x - 9223372036854775808.

Lemma sh_u64 x : u64 x -> u64 (sh x).
Proof. unfold u64, sh. intros. destruct (Z.ltb_spec x 9223372036854775808); lia. Qed.
Lemma sh_sh x : u64 x -> sh (sh x) = x.
Proof.
  unfold u64, sh. intros. destruct (Z.ltb_spec x 9223372036854775808).
  - destruct (Z.ltb_spec (x + 9223372036854775808) 9223372036854775808); lia.
  - destruct (Z.ltb_spec (x - 9223372036854775808) 9223372036854775808); lia.
Qed.

Lemma gt_sh a b : u64 a -> u64 b -> l_gt64 (sh a) (sh b) = if b <? a then ONES64 else 0.
Proof.
  intros A B. unfold u64 in *. unfold l_gt64.
  assert (S1 : forall x, 0 <= x < 18446744073709551616 -> signed 64 (sh x) = x - 9223372036854775808).
  { intros x X. unfold signed, sh. change (2 ^ (64 - 1)) with 9223372036854775808. change (2 ^ 64) with 18446744073709551616.
    destruct (Z.ltb_spec x 9223372036854775808).
    - destruct (Z.ltb_spec (x + 9223372036854775808) 9223372036854775808); lia.
    - destruct (Z.ltb_spec (x - 9223372036854775808) 9223372036854775808); lia. }
  rewrite !S1 by assumption.
  destruct (Z.ltb_spec b a); destruct (Z.ltb_spec (b - 9223372036854775808) (a - 9223372036854775808)); try lia; reflexivity.
Qed.

Lemma lxor_sh x : u64 x -> Z.lxor x SIGN_BIT = sh x.
Proof. exact (xor_sign x). Qed.

(* wrapping operations *)
Ltac wmod := unfold l_add, l_sub; rewrite W_eq.
Lemma mod_W_lo x : 0 <= x < 18446744073709551616 -> x mod 18446744073709551616 = x.
Proof. intros. apply Z.mod_small. assumption. Qed.
Lemma mod_W_hi x : 18446744073709551616 <= x < 2 * 18446744073709551616 -> x mod 18446744073709551616 = x - 18446744073709551616.
Proof. intros. symmetry. apply (Z.mod_unique _ _ 1); lia. Qed.
Lemma mod_W_neg x : - 18446744073709551616 <= x < 0 -> x mod 18446744073709551616 = x + 18446744073709551616.
Proof. intros. symmetry. apply (Z.mod_unique _ _ (-1)); lia. Qed.

Definition wadd (x y : Z) : Z := if x + y <? 18446744073709551616 then x + y else x + y - 18446744073709551616.
Definition wsub (x y : Z) : Z := if x <? y then x - y + 18446744073709551616 else x - y.
Lemma l_add_w x y : u64 x -> u64 y -> l_add x y = wadd x y.
Proof.
  unfold u64, wadd. intros. wmod. destruct (Z.ltb_spec (x + y) 18446744073709551616).
  - apply mod_W_lo. lia.
  - apply mod_W_hi. lia.
Qed.
Lemma l_sub_w x y : u64 x -> u64 y -> l_sub x y = wsub x y.
Proof.
  unfold u64, wsub. intros. wmod. destruct (Z.ltb_spec x y).
  - apply mod_W_neg. lia.
  - apply mod_W_lo. lia.
Qed.

Ltac zb := repeat match goal with
  | |- context [?a <? ?b] => destruct (Z.ltb_spec a b)
  | |- context [?a <=? ?b] => destruct (Z.leb_spec a b) end.

(* a shifted and an unshifted operand *)
Lemma l_add_sh x y : u64 x -> u64 y -> l_add x (sh y) = sh (wadd x y).
Proof.
  intros X Y. rewrite l_add_w by (try apply sh_u64; assumption). unfold u64, wadd, sh in *. zb; lia.
Qed.
Lemma l_add_sh' x y : u64 x -> u64 y -> l_add (sh x) y = sh (wadd x y).
Proof.
  intros X Y. rewrite l_add_w by (try apply sh_u64; assumption). unfold u64, wadd, sh in *. zb; lia.
Qed.
Lemma l_sub_sh x y : u64 x -> u64 y -> l_sub (sh x) (sh y) = wsub x y.
Proof.
  intros X Y. rewrite l_sub_w by (apply sh_u64; assumption). unfold u64, wsub, sh in *. zb; lia.
Qed.
Lemma l_sub_sh' x y : u64 x -> u64 y -> l_sub (sh x) y = sh (wsub x y).
Proof.
  intros X Y. rewrite l_sub_w by (try apply sh_u64; assumption). unfold u64, wsub, sh in *. zb; lia.
Qed.
Lemma wadd_u64 x y : u64 x -> u64 y -> u64 (wadd x y).
Proof. unfold u64, wadd. intros. zb; lia. Qed.
Lemma wsub_u64 x y : u64 x -> u64 y -> u64 (wsub x y).
Proof. unfold u64, wsub. intros. zb; lia. Qed.

Lemma andnot_1 : l_andnot ONES64 EPSILON = 0. Proof. reflexivity. Qed.
Lemma andnot_0 : l_andnot 0 EPSILON = EPSILON. Proof. reflexivity. Qed.
Lemma srl_ones : l_srl 32 ONES64 = EPSILON. Proof. reflexivity. Qed.
Lemma srl_0 : l_srl 32 0 = 0. Proof. reflexivity. Qed.
Lemma SFO_sh : SHIFTED_FIELD_ORDER = sh P. Proof. reflexivity. Qed.
Lemma P_u64 : u64 P. Proof. unfold u64. lia. Qed.
Lemma eps_u64 : u64 EPSILON. Proof. unfold u64, EPSILON. lia. Qed.
Lemma zero_u64 : u64 0. Proof. unfold u64. lia. Qed.

Definition canon (x : Z) : Z := if x <? P then x else x - P.
Lemma canon_u64 x : u64 x -> u64 (canon x).
Proof. unfold u64, canon. intros. zb; lia. Qed.
Lemma canon_mod x : u64 x -> canon x = x mod P.
Proof.
  unfold u64, canon. intros. destruct (Z.ltb_spec x P).
  - symmetry. apply Z.mod_small. lia.
  - apply (Z.mod_unique _ _ 1); lia.
Qed.
Lemma canon_lt x : u64 x -> 0 <= canon x < P.
Proof. unfold u64, canon. intros. zb; lia. Qed.
Lemma canon_id x : 0 <= x < P -> canon x = x.
Proof. unfold canon. intros. zb; lia. Qed.

Lemma v2_shift_1 x : u64 x -> v2_shift [x] = [sh x].
Proof. intros X. unfold v2_shift, splat. cbn [map map2]. rewrite lxor_sh by exact X. reflexivity. Qed.
Lemma v2_shift_s x : u64 x -> v2_shift [sh x] = [x].
Proof. intros X. rewrite v2_shift_1 by (apply sh_u64; exact X). rewrite sh_sh by exact X. reflexivity. Qed.

Lemma v2_canon_1 x : u64 x -> v2_canonicalize_s [sh x] = [sh (canon x)].
Proof.
  intros X. unfold v2_canonicalize_s, splat. cbn [map map2]. rewrite SFO_sh, (gt_sh _ _ P_u64 X).
  unfold canon. destruct (Z.ltb_spec x P) as [L|L].
  - rewrite andnot_1, (l_add_sh' _ _ X zero_u64). f_equal. f_equal. unfold u64, wadd in *. zb; lia.
  - rewrite andnot_0, (l_add_sh' _ _ X eps_u64). f_equal. f_equal. unfold u64, wadd, EPSILON in *. zb; lia.
Qed.

(* x + y where the sum is below 2^64 + p *)
Definition addf (x y : Z) : Z := if x + y <? 18446744073709551616 then x + y else x + y - P.
Lemma addf_u64 x y : u64 x -> u64 y -> x + y < 18446744073709551616 + P -> u64 (addf x y).
Proof. unfold u64, addf. intros. zb; lia. Qed.
Lemma v2_addndo_1 x y : u64 x -> u64 y -> x + y < 18446744073709551616 + P ->
  v2_add_no_double_overflow [x] [sh y] = [sh (addf x y)].
Proof.
  intros X Y L. unfold v2_add_no_double_overflow. cbn [map map2].
  rewrite (l_add_sh _ _ X Y), (gt_sh _ _ Y (wadd_u64 _ _ X Y)).
  destruct (Z.ltb_spec (wadd x y) y) as [G|G].
  - rewrite srl_ones, (l_add_sh' _ _ (wadd_u64 _ _ X Y) eps_u64). f_equal. f_equal.
    unfold u64, wadd, addf, EPSILON in *. revert G. zb; lia.
  - rewrite srl_0, (l_add_sh' _ _ (wadd_u64 _ _ X Y) zero_u64). f_equal. f_equal.
    unfold u64, wadd, addf, EPSILON in *. revert G. zb; lia.
Qed.

Lemma v2_add_1 x y : u64 x -> u64 y -> v2_add [x] [y] = [(x + y) mod P].
Proof.
  intros X Y. unfold v2_add. rewrite (v2_shift_1 _ Y), (v2_canon_1 _ Y).
  assert (L : x + canon y < 18446744073709551616 + P) by (pose proof (canon_lt _ Y); unfold u64 in X; lia).
  rewrite (v2_addndo_1 _ _ X (canon_u64 _ Y) L).
  pose proof (addf_u64 _ _ X (canon_u64 _ Y) L) as U.
  rewrite (v2_canon_1 _ U), (v2_shift_s _ (canon_u64 _ U)), (canon_mod _ U). f_equal.
  assert (E : addf x (canon y) mod P = (x + canon y) mod P).
  { unfold addf. zb; [reflexivity|]. replace (x + canon y - P) with (x + canon y + (-1) * P) by lia. apply Z.mod_add. lia. }
  rewrite E, (canon_mod _ Y). apply Z.add_mod_idemp_r. lia.
Qed.

Lemma v2_sub_1 x y : 0 <= x < P -> u64 y -> v2_sub [x] [y] = [(x - y) mod P].
Proof.
  intros X' Y. assert (X : u64 x) by (unfold u64; lia).
  unfold v2_sub. rewrite (v2_shift_1 _ Y), (v2_canon_1 _ Y), (v2_shift_1 _ X). cbn [map map2].
  pose proof (canon_u64 _ Y) as C. pose proof (canon_lt _ Y) as CL.
  rewrite (gt_sh _ _ C X), (l_sub_sh _ _ X C).
  assert (E : (x - y) mod P = (x - canon y) mod P) by (rewrite (canon_mod _ Y); symmetry; apply Zminus_mod_idemp_r).
  rewrite E. f_equal. set (c := canon y) in *. clearbody c.
  destruct (Z.ltb_spec x c) as [G|G].
  - rewrite srl_ones, (l_sub_w _ _ (wsub_u64 _ _ X C) eps_u64).
    replace (wsub (wsub x c) EPSILON) with (x - c + P) by (unfold u64, wsub, EPSILON in *; zb; lia).
    apply (Z.mod_unique _ _ (-1)); lia.
  - rewrite srl_0, (l_sub_w _ _ (wsub_u64 _ _ X C) zero_u64).
    replace (wsub (wsub x c) 0) with (x - c) by (unfold u64, wsub in *; zb; lia).
    symmetry. apply Z.mod_small. lia.
Qed.

Lemma v2_sub_any x y : u64 x -> u64 y -> exists z, v2_sub [x] [y] = [z] /\ u64 z /\ z mod P = (x - y) mod P.
Proof.
  intros X Y.
  unfold v2_sub. rewrite (v2_shift_1 _ Y), (v2_canon_1 _ Y), (v2_shift_1 _ X). cbn [map map2].
  pose proof (canon_u64 _ Y) as C. pose proof (canon_lt _ Y) as CL.
  rewrite (gt_sh _ _ C X), (l_sub_sh _ _ X C).
  assert (E : (x - y) mod P = (x - canon y) mod P) by (rewrite (canon_mod _ Y); symmetry; apply Zminus_mod_idemp_r).
  rewrite E. set (c := canon y) in *. clearbody c. eexists. split; [reflexivity|].
  destruct (Z.ltb_spec x c) as [G|G].
  - rewrite srl_ones, (l_sub_w _ _ (wsub_u64 _ _ X C) eps_u64).
    replace (wsub (wsub x c) EPSILON) with (x - c + 1 * P) by (unfold u64, wsub, EPSILON in *; zb; lia).
    split; [unfold u64 in *; lia|apply Z.mod_add; lia].
  - rewrite srl_0, (l_sub_w _ _ (wsub_u64 _ _ X C) zero_u64).
    replace (wsub (wsub x c) 0) with (x - c) by (unfold u64, wsub in *; zb; lia).
    split; [unfold u64 in *; lia|reflexivity].
Qed.

Lemma v2_neg_1 y : u64 y -> v2_neg [y] = [P - y mod P].
Proof.
  intros Y. unfold v2_neg. rewrite (v2_shift_1 _ Y), (v2_canon_1 _ Y). cbn [splat map map2].
  rewrite SFO_sh, (l_sub_sh _ _ P_u64 (canon_u64 _ Y)), <- (canon_mod _ Y). f_equal.
  pose proof (canon_lt _ Y). unfold wsub. zb; lia.
Qed.

(** ** Products *)

Lemma split32 x : u64 x -> x = hi32 x * 4294967296 + lo32 x /\ 0 <= hi32 x < 4294967296 /\ 0 <= lo32 x < 4294967296.
Proof.
  unfold u64, hi32, lo32. rewrite H_eq. intros X.
  pose proof (Z.div_mod x 4294967296 ltac:(lia)). pose proof (Z.mod_pos_bound x 4294967296 ltac:(lia)).
  assert (0 <= x / 4294967296) by (apply Z.div_pos; lia). lia.
Qed.
Lemma lo_join h l : 0 <= l < 4294967296 -> lo32 (h * H32 + l) = l.
Proof. unfold lo32. rewrite H_eq. intros. rewrite Z.add_comm, Z.mod_add by lia. apply Z.mod_small. lia. Qed.
Lemma hi_join h l : 0 <= l < 4294967296 -> hi32 (h * H32 + l) = h.
Proof. unfold hi32. rewrite H_eq. intros. rewrite Z.div_add_l by lia. rewrite Z.div_small by lia. lia. Qed.
Lemma mul32_bound a b : 0 <= a < 4294967296 -> 0 <= b < 4294967296 -> 0 <= a * b <= 18446744065119617025.
Proof. intros. split; [apply Z.mul_nonneg_nonneg; lia|]. apply (Z.mul_le_mono_nonneg a 4294967295 b 4294967295); lia. Qed.

Lemma srl32 x : l_srl 32 x = hi32 x. Proof. reflexivity. Qed.
Lemma land_eps x : 0 <= x -> Z.land x EPSILON = lo32 x.
Proof. intros. change EPSILON with (Z.ones 32). rewrite Z.land_ones by lia. reflexivity. Qed.

Lemma hdup_lo x : u64 x -> lo32 (l_hdup x) = hi32 x.
Proof. intros X. unfold l_hdup. apply lo_join. apply (split32 _ X). Qed.

(* the emulated 64 x 64 -> 128 product *)
Section Prod.
Variables x y : Z.
Hypothesis X : u64 x.
Hypothesis Y : u64 y.
Let ll := l_mul32 x y.
Let lh := l_mul32 x (l_hdup y).
Let hl := l_mul32 (l_hdup x) y.
Let hh := l_mul32 (l_hdup x) (l_hdup y).
Let t0 := l_add hl (l_srl 32 ll).
Let t1 := l_add lh (Z.land t0 EPSILON).
Let t2 := l_add hh (l_srl 32 t0).
Let rh := l_add t2 (l_srl 32 t1).
Let rl := l_blend_aa ll (l_ldup t1).

Lemma prod_spec : rh * 18446744073709551616 + rl = x * y /\ u64 rh /\ u64 rl.
Proof.
  destruct (split32 _ X) as (EX & XH & XL). destruct (split32 _ Y) as (EY & YH & YL).
  assert (Ell : ll = lo32 x * lo32 y) by reflexivity.
  assert (Elh : lh = lo32 x * hi32 y) by (unfold lh, l_mul32; rewrite (hdup_lo _ Y); reflexivity).
  assert (Ehl : hl = hi32 x * lo32 y) by (unfold hl, l_mul32; rewrite (hdup_lo _ X); reflexivity).
  assert (Ehh : hh = hi32 x * hi32 y) by (unfold hh, l_mul32; rewrite (hdup_lo _ X), (hdup_lo _ Y); reflexivity).
  pose proof (mul32_bound _ _ XL YL) as Bll. pose proof (mul32_bound _ _ XL YH) as Blh.
  pose proof (mul32_bound _ _ XH YL) as Bhl. pose proof (mul32_bound _ _ XH YH) as Bhh.
  rewrite <- Ell in Bll. rewrite <- Elh in Blh. rewrite <- Ehl in Bhl. rewrite <- Ehh in Bhh.
  assert (EP : x * y = hh * 18446744073709551616 + (hl + lh) * 4294967296 + ll).
  { rewrite Ehh, Ehl, Elh, Ell. rewrite EX at 1. rewrite EY at 1. ring. }
  assert (Ull : u64 ll) by (unfold u64; lia).
  destruct (split32 _ Ull) as (E0 & B0 & B0').
  assert (Et0 : t0 = hl + hi32 ll).
  { unfold t0. rewrite srl32, l_add_w by (unfold u64; lia). unfold wadd. zb; lia. }
  assert (Ut0 : u64 t0) by (unfold u64; lia).
  destruct (split32 _ Ut0) as (E1 & B1 & B1').
  assert (Et1 : t1 = lh + lo32 t0).
  { unfold t1. rewrite land_eps by lia. rewrite l_add_w by (unfold u64; lia). unfold wadd. zb; lia. }
  assert (Ut1 : u64 t1) by (unfold u64; lia).
  destruct (split32 _ Ut1) as (E2 & B2 & B2').
  assert (Et2 : t2 = hh + hi32 t0).
  { unfold t2. rewrite srl32, l_add_w by (unfold u64; lia). unfold wadd. zb; lia. }
  assert (Erh : rh = t2 + hi32 t1).
  { unfold rh. rewrite srl32, l_add_w by (unfold u64; lia). unfold wadd. zb; lia. }
  assert (Erl : rl = lo32 t1 * 4294967296 + lo32 ll).
  { unfold rl, l_blend_aa, l_ldup. rewrite (hi_join _ _ B2'), H_eq. reflexivity. }
  rewrite EP. unfold u64. lia.
Qed.
End Prod.

Lemma srl_div n x d : 2 ^ n = d -> l_srl n x = x / d.
Proof. intros <-. reflexivity. Qed.

Section Sq.
Variable x : Z.
Hypothesis X : u64 x.
Let ll := l_mul32 x x.
Let lh := l_mul32 x (l_hdup x).
Let hh := l_mul32 (l_hdup x) (l_hdup x).
Let t0 := l_add lh (l_srl 33 ll).
Let rh := l_add hh (l_srl 31 t0).
Let rl := l_add ll (l_sll 33 lh).

Lemma sq_spec : rh * 18446744073709551616 + rl = x * x /\ u64 rh /\ u64 rl.
Proof.
  destruct (split32 _ X) as (EX & XH & XL).
  assert (Ell : ll = lo32 x * lo32 x) by reflexivity.
  assert (Elh : lh = lo32 x * hi32 x) by (unfold lh, l_mul32; rewrite (hdup_lo _ X); reflexivity).
  assert (Ehh : hh = hi32 x * hi32 x) by (unfold hh, l_mul32; rewrite (hdup_lo _ X); reflexivity).
  pose proof (mul32_bound _ _ XL XL) as Bll. pose proof (mul32_bound _ _ XL XH) as Blh. pose proof (mul32_bound _ _ XH XH) as Bhh.
  rewrite <- Ell in Bll. rewrite <- Elh in Blh. rewrite <- Ehh in Bhh.
  assert (EP : x * x = hh * 18446744073709551616 + lh * 8589934592 + ll).
  { rewrite Ehh, Elh, Ell. rewrite EX at 1 2. ring. }
  pose proof (Z.div_mod ll 8589934592 ltac:(lia)) as D0. pose proof (Z.mod_pos_bound ll 8589934592 ltac:(lia)) as M0.
  assert (Et0 : t0 = lh + ll / 8589934592).
  { unfold t0. rewrite (srl_div 33 ll 8589934592 eq_refl), l_add_w by (unfold u64; lia). unfold wadd. zb; lia. }
  pose proof (Z.div_mod t0 2147483648 ltac:(lia)) as D1. pose proof (Z.mod_pos_bound t0 2147483648 ltac:(lia)) as M1.
  pose proof (Z.div_mod lh 2147483648 ltac:(lia)) as D2. pose proof (Z.mod_pos_bound lh 2147483648 ltac:(lia)) as M2.
  assert (Es : l_sll 33 lh = (lh mod 2147483648) * 8589934592).
  { unfold l_sll. rewrite W_eq. change (2 ^ 33) with 8589934592. symmetry. apply (Z.mod_unique _ _ (lh / 2147483648)); lia. }
  assert (Erh : rh = hh + t0 / 2147483648).
  { unfold rh. rewrite (srl_div 31 t0 2147483648 eq_refl), l_add_w by (unfold u64; lia). unfold wadd. zb; lia. }
  assert (Erl : rl = wadd ll ((lh mod 2147483648) * 8589934592)).
  { unfold rl. rewrite Es. apply l_add_w; unfold u64; lia. }
  rewrite EP, Erl, Erh. unfold u64, wadd. zb; lia.
Qed.
End Sq.

Lemma v2_mul64_1 x y : u64 x -> u64 y ->
  exists h l, v2_mul64_64 [x] [y] = ([h], [l]) /\ h * 18446744073709551616 + l = x * y /\ u64 h /\ u64 l.
Proof. intros X Y. eexists. eexists. split; [reflexivity|]. exact (prod_spec x y X Y). Qed.
Lemma v2_square64_1 x : u64 x ->
  exists h l, v2_square64 [x] = ([h], [l]) /\ h * 18446744073709551616 + l = x * x /\ u64 h /\ u64 l.
Proof. intros X. eexists. eexists. split; [reflexivity|]. exact (sq_spec x X). Qed.

(** ** Reduction *)

Lemma hi_sh x : u64 x -> signed 32 (hi32 (sh x)) = hi32 x - 2147483648.
Proof.
  intros X. destruct (split32 _ X) as (E & B & B'). pose proof (sh_u64 _ X) as S. destruct (split32 _ S) as (E' & C & C').
  unfold signed. change (2 ^ (32 - 1)) with 2147483648. change (2 ^ 32) with 4294967296.
  unfold sh in *. revert E' C C'. zb; lia.
Qed.
Lemma gt32_hi a b : u64 a -> u64 b -> l_srl 32 (l_gt32 (sh a) (sh b)) = if hi32 b <? hi32 a then EPSILON else 0.
Proof.
  intros A B. unfold l_gt32. rewrite srl32.
  set (l := if signed 32 (lo32 (sh b)) <? signed 32 (lo32 (sh a)) then H32 - 1 else 0).
  assert (L : 0 <= l < 4294967296) by (unfold l; rewrite H_eq; destruct (_ <? _); lia).
  rewrite (hi_join _ _ L), (hi_sh _ A), (hi_sh _ B), H_eq. unfold EPSILON. zb; lia.
Qed.

Lemma v2_addsmall_1 x y : u64 x -> 0 <= y <= 18446744069414584320 -> v2_add_small [sh x] [y] = [sh (addf x y)].
Proof.
  intros X Y. assert (Y' : u64 y) by (unfold u64; lia). unfold v2_add_small. cbn [map map2].
  rewrite (l_add_sh' _ _ X Y'). pose proof (wadd_u64 _ _ X Y') as U. rewrite (gt32_hi _ _ X U).
  destruct (split32 _ X) as (E & B & B'). destruct (split32 _ U) as (E' & C & C').
  destruct (Z.ltb_spec (hi32 (wadd x y)) (hi32 x)) as [G|G].
  - rewrite (l_add_sh' _ _ U eps_u64). f_equal. f_equal. unfold EPSILON.
    unfold u64, addf in *. revert E' G. unfold wadd in *. zb; lia.
  - rewrite (l_add_sh' _ _ U zero_u64). f_equal. f_equal.
    unfold u64, addf in *. revert E' G. unfold wadd in *. zb; lia.
Qed.

Definition subf (x y : Z) : Z := if x <? y then x - y + P else x - y.
Lemma v2_subsmall_1 x y : u64 x -> 0 <= y <= 4294967295 -> v2_sub_small [sh x] [y] = [sh (subf x y)].
Proof.
  intros X Y. assert (Y' : u64 y) by (unfold u64; lia). unfold v2_sub_small. cbn [map map2].
  rewrite (l_sub_sh' _ _ X Y'). pose proof (wsub_u64 _ _ X Y') as U. rewrite (gt32_hi _ _ U X).
  destruct (split32 _ X) as (E & B & B'). destruct (split32 _ U) as (E' & C & C').
  destruct (Z.ltb_spec (hi32 x) (hi32 (wsub x y))) as [G|G].
  - rewrite (l_sub_sh' _ _ U eps_u64). f_equal. f_equal. unfold EPSILON.
    unfold u64, subf in *. revert E' G. unfold wsub in *. zb; lia.
  - rewrite (l_sub_sh' _ _ U zero_u64). f_equal. f_equal.
    unfold u64, subf in *. revert E' G. unfold wsub in *. zb; lia.
Qed.
Lemma subf_u64 x y : u64 x -> 0 <= y <= 4294967295 -> u64 (subf x y).
Proof. unfold u64, subf. intros. zb; lia. Qed.
Lemma addf_mod x y : addf x y mod P = (x + y) mod P.
Proof.
  unfold addf. zb; [reflexivity|]. replace (x + y - P) with (x + y + (-1) * P) by lia. apply Z.mod_add. lia.
Qed.
Lemma subf_mod x y : subf x y mod P = (x - y) mod P.
Proof. unfold subf. zb; [|reflexivity]. replace (x - y + P) with (x - y + 1 * P) by lia. apply Z.mod_add. lia. Qed.

(* hi * 2^64 + lo = lo - hi_hi + hi_lo * (2^32 - 1) modulo p *)
Lemma red_mod h l : u64 h -> (l - hi32 h + lo32 h * 4294967295) mod P = (h * 18446744073709551616 + l) mod P.
Proof.
  intros Hh. destruct (split32 _ Hh) as (E & B & B').
  replace (h * 18446744073709551616 + l) with (l - hi32 h + lo32 h * 4294967295 + (hi32 h * 4294967297 + lo32 h) * P).
  - symmetry. apply Z.mod_add. lia.
  - rewrite E at 5. lia.
Qed.

Lemma v2_reduce_1 h l : u64 h -> u64 l -> v2_reduce128 ([h], [l]) = [(h * 18446744073709551616 + l) mod P].
Proof.
  intros Hh L. destruct (split32 _ Hh) as (E & B & B').
  unfold v2_reduce128. rewrite (v2_shift_1 _ L). cbn [map map2 splat]. rewrite srl32.
  assert (Bh : 0 <= hi32 h <= 4294967295) by lia.
  rewrite (v2_subsmall_1 _ _ L Bh). pose proof (subf_u64 _ _ L Bh) as U.
  assert (T : l_mul32 h EPSILON = lo32 h * 4294967295) by reflexivity. rewrite T.
  rewrite v2_addsmall_1 by (try exact U; lia).
  assert (U2 : u64 (addf (subf l (hi32 h)) (lo32 h * 4294967295))) by (apply addf_u64; [exact U|unfold u64; lia|unfold u64 in U; lia]).
  rewrite (v2_canon_1 _ U2), (v2_shift_s _ (canon_u64 _ U2)), (canon_mod _ U2), addf_mod.
  f_equal. rewrite <- Z.add_mod_idemp_l by lia. rewrite subf_mod, Z.add_mod_idemp_l by lia. apply red_mod. exact Hh.
Qed.

Lemma v2_mul_1 x y : u64 x -> u64 y -> v2_mul [x] [y] = [(x * y) mod P].
Proof.
  intros X Y. destruct (v2_mul64_1 _ _ X Y) as (h & l & E & V & Hh & L). unfold v2_mul. rewrite E, (v2_reduce_1 _ _ Hh L), V. reflexivity.
Qed.
Lemma v2_square_1 x : u64 x -> v2_square [x] = [(x * x) mod P].
Proof.
  intros X. destruct (v2_square64_1 _ X) as (h & l & E & V & Hh & L). unfold v2_square. rewrite E, (v2_reduce_1 _ _ Hh L), V. reflexivity.
Qed.

(** ** AVX-512 lanes *)

Lemma v5_canon_1 x : u64 x -> v5_canonicalize [x] = [x mod P].
Proof.
  intros X. rewrite <- (canon_mod _ X). unfold v5_canonicalize, splat. cbn [map map2 masked]. f_equal.
  unfold l_ge, FIELD_ORDER, canon. rewrite (l_sub_w _ _ X P_u64). unfold u64, wsub in *. zb; lia.
Qed.
Lemma v5_addndo_1 x y : u64 x -> u64 y -> x + y < 18446744073709551616 + P ->
  v5_add_no_double_overflow [x] [y] = [addf x y].
Proof.
  intros X Y L. unfold v5_add_no_double_overflow, splat. cbn [map map2 masked]. rewrite (l_add_w _ _ X Y). f_equal.
  unfold l_lt, FIELD_ORDER. rewrite (l_sub_w _ _ (wadd_u64 _ _ X Y) P_u64). unfold u64, wadd, wsub, addf in *. zb; lia.
Qed.
Lemma v5_subndo_1 x y : u64 x -> 0 <= y <= P -> v5_sub_no_double_overflow [x] [y] = [subf x y].
Proof.
  intros X Y. assert (Y' : u64 y) by (unfold u64; lia). unfold v5_sub_no_double_overflow, splat. cbn [map map2 masked].
  rewrite (l_sub_w _ _ X Y'). f_equal.
  unfold l_lt, FIELD_ORDER. rewrite (l_add_w _ _ (wsub_u64 _ _ X Y') P_u64). unfold u64, wadd, wsub, subf in *. zb; lia.
Qed.
Lemma v5_add_1 x y : u64 x -> u64 y -> v5_add [x] [y] = [(x + y) mod P].
Proof.
  intros X Y. unfold v5_add. rewrite (v5_canon_1 _ Y).
  pose proof (Z.mod_pos_bound y P ltac:(lia)) as B.
  assert (L : x + y mod P < 18446744073709551616 + P) by (unfold u64 in X; lia).
  assert (C : u64 (y mod P)) by (unfold u64; lia).
  rewrite (v5_addndo_1 _ _ X C L), (v5_canon_1 _ (addf_u64 _ _ X C L)), addf_mod. f_equal. apply Z.add_mod_idemp_r. lia.
Qed.
Lemma v5_sub_1 x y : 0 <= x < P -> u64 y -> v5_sub [x] [y] = [(x - y) mod P].
Proof.
  intros X Y. unfold v5_sub. rewrite (v5_canon_1 _ Y).
  pose proof (Z.mod_pos_bound y P ltac:(lia)) as B.
  rewrite v5_subndo_1 by (unfold u64; lia). f_equal. rewrite <- (Zminus_mod_idemp_r x y).
  rewrite <- subf_mod. symmetry. apply Z.mod_small. unfold subf. zb; lia.
Qed.
Lemma v5_sub_any x y : u64 x -> u64 y -> exists z, v5_sub [x] [y] = [z] /\ u64 z /\ z mod P = (x - y) mod P.
Proof.
  intros X Y. unfold v5_sub. rewrite (v5_canon_1 _ Y).
  pose proof (Z.mod_pos_bound y P ltac:(lia)) as B.
  rewrite v5_subndo_1 by (unfold u64 in *; lia). eexists. split; [reflexivity|]. split.
  - unfold u64, subf in *. zb; lia.
  - rewrite subf_mod. apply Zminus_mod_idemp_r.
Qed.
Lemma v5_neg_1 y : u64 y -> v5_neg [y] = [P - y mod P].
Proof.
  intros Y. unfold v5_neg. rewrite (v5_canon_1 _ Y). cbn [splat map map2]. f_equal.
  pose proof (Z.mod_pos_bound y P ltac:(lia)) as B. unfold FIELD_ORDER. rewrite l_sub_w by (unfold u64; lia).
  unfold wsub. zb; lia.
Qed.
Lemma blend_55_aa a b : l_blend_55 a b = l_blend_aa b a. Proof. reflexivity. Qed.
Lemma v5_reduce_1 h l : u64 h -> u64 l -> v5_reduce128 ([h], [l]) = [(h * 18446744073709551616 + l) mod P].
Proof.
  intros Hh L. destruct (split32 _ Hh) as (E & B & B').
  unfold v5_reduce128. cbn [map map2 splat]. rewrite srl32.
  assert (Bh : 0 <= hi32 h <= 4294967295) by lia.
  rewrite v5_subndo_1 by (try exact L; lia). pose proof (subf_u64 _ _ L Bh) as U.
  assert (T : l_mul32 h EPSILON = lo32 h * 4294967295) by reflexivity. rewrite T.
  rewrite v5_addndo_1 by (try exact U; unfold u64 in *; lia).
  assert (U2 : u64 (addf (subf l (hi32 h)) (lo32 h * 4294967295))) by (apply addf_u64; [exact U|unfold u64; lia|unfold u64 in U; lia]).
  rewrite (v5_canon_1 _ U2), addf_mod.
  f_equal. rewrite <- Z.add_mod_idemp_l by lia. rewrite subf_mod, Z.add_mod_idemp_l by lia. apply red_mod. exact Hh.
Qed.
Lemma v5_mul_1 x y : u64 x -> u64 y -> v5_mul [x] [y] = [(x * y) mod P].
Proof.
  intros X Y. destruct (v2_mul64_1 _ _ X Y) as (h & l & E & V & Hh & L). unfold v5_mul.
  change (v5_mul64_64 [x] [y]) with (v2_mul64_64 [x] [y]). rewrite E, (v5_reduce_1 _ _ Hh L), V. reflexivity.
Qed.
Lemma v5_square_1 x : u64 x -> v5_square [x] = [(x * x) mod P].
Proof.
  intros X. destruct (v2_square64_1 _ X) as (h & l & E & V & Hh & L). unfold v5_square.
  change (v5_square64 [x]) with (v2_square64 [x]). rewrite E, (v5_reduce_1 _ _ Hh L), V. reflexivity.
Qed.

(** * Registers *)

Section Lift.
Variable op : list Z -> list Z -> list Z.
Hypothesis op_nil : op [] [] = [].
Hypothesis op_cons : forall a x b y, op (a :: x) (b :: y) = op [a] [b] ++ op x y.
Lemma lift2 (PA PB : Z -> Prop) f : (forall a b, PA a -> PB b -> op [a] [b] = [f a b]) ->
  forall x y, length x = length y -> Forall PA x -> Forall PB y -> op x y = map2 f x y.
Proof.
  intros H. induction x as [|a x IH]; intros [|b y] L FA FB; try discriminate L; [exact op_nil|].
  inversion FA; inversion FB; subst. rewrite op_cons, H by assumption. cbn [map2 app]. f_equal. apply IH; auto.
Qed.
End Lift.
Section Lift1.
Variable op : list Z -> list Z.
Hypothesis op_nil : op [] = [].
Hypothesis op_cons : forall a x, op (a :: x) = op [a] ++ op x.
Lemma lift1 (PA : Z -> Prop) f : (forall a, PA a -> op [a] = [f a]) -> forall x, Forall PA x -> op x = map f x.
Proof.
  intros H. induction x as [|a x IH]; intros FA; [exact op_nil|].
  inversion FA; subst. rewrite op_cons, H by assumption. cbn [map app]. f_equal. apply IH; auto.
Qed.
End Lift1.

Definition canonical (x : Z) : Prop := 0 <= x < P.
Lemma canonical_u64 x : canonical x -> u64 x. Proof. unfold canonical, u64. lia. Qed.

Lemma v2_add_all x y : length x = length y -> Forall u64 x -> Forall u64 y -> v2_add x y = map2 (fun a b => (a + b) mod P) x y.
Proof. apply (lift2 v2_add); [reflexivity|reflexivity|exact v2_add_1]. Qed.
Lemma v2_sub_all x y : length x = length y -> Forall canonical x -> Forall u64 y -> v2_sub x y = map2 (fun a b => (a - b) mod P) x y.
Proof. apply (lift2 v2_sub); [reflexivity|reflexivity|exact v2_sub_1]. Qed.
Lemma v2_mul_all x y : length x = length y -> Forall u64 x -> Forall u64 y -> v2_mul x y = map2 (fun a b => (a * b) mod P) x y.
Proof. apply (lift2 v2_mul); [reflexivity|reflexivity|exact v2_mul_1]. Qed.
Lemma v2_square_all x : Forall u64 x -> v2_square x = map (fun a => (a * a) mod P) x.
Proof. apply (lift1 v2_square); [reflexivity|reflexivity|exact v2_square_1]. Qed.
Lemma v2_neg_all x : Forall u64 x -> v2_neg x = map (fun a => P - a mod P) x.
Proof. apply (lift1 v2_neg); [reflexivity|reflexivity|exact v2_neg_1]. Qed.
Lemma v2_reduce_all h l : length h = length l -> Forall u64 h -> Forall u64 l ->
  v2_reduce128 (h, l) = map2 (fun a b => (a * 18446744073709551616 + b) mod P) h l.
Proof. apply (lift2 (fun h l => v2_reduce128 (h, l))); [reflexivity|reflexivity|exact v2_reduce_1]. Qed.
Lemma v5_add_all x y : length x = length y -> Forall u64 x -> Forall u64 y -> v5_add x y = map2 (fun a b => (a + b) mod P) x y.
Proof. apply (lift2 v5_add); [reflexivity|reflexivity|exact v5_add_1]. Qed.
Lemma v5_sub_all x y : length x = length y -> Forall canonical x -> Forall u64 y -> v5_sub x y = map2 (fun a b => (a - b) mod P) x y.
Proof. apply (lift2 v5_sub); [reflexivity|reflexivity|exact v5_sub_1]. Qed.
Lemma v5_mul_all x y : length x = length y -> Forall u64 x -> Forall u64 y -> v5_mul x y = map2 (fun a b => (a * b) mod P) x y.
Proof. apply (lift2 v5_mul); [reflexivity|reflexivity|exact v5_mul_1]. Qed.
Lemma v5_square_all x : Forall u64 x -> v5_square x = map (fun a => (a * a) mod P) x.
Proof. apply (lift1 v5_square); [reflexivity|reflexivity|exact v5_square_1]. Qed.
Lemma v5_neg_all x : Forall u64 x -> v5_neg x = map (fun a => P - a mod P) x.
Proof. apply (lift1 v5_neg); [reflexivity|reflexivity|exact v5_neg_1]. Qed.
Lemma v5_reduce_all h l : length h = length l -> Forall u64 h -> Forall u64 l ->
  v5_reduce128 (h, l) = map2 (fun a b => (a * 18446744073709551616 + b) mod P) h l.
Proof. apply (lift2 (fun h l => v5_reduce128 (h, l))); [reflexivity|reflexivity|exact v5_reduce_1]. Qed.

(** * Negation at zero *)

Lemma neg_nonzero a : canonical a -> a <> 0 -> P - a mod P = (- a) mod P.
Proof.
  intros C N. unfold canonical in C. rewrite Z.mod_small by exact C. apply (Z.mod_unique _ _ (-1)); lia.
Qed.
Lemma v2_neg_nz x : Forall canonical x -> Forall (fun a => a <> 0) x -> v2_neg x = map (fun a => (- a) mod P) x.
Proof.
  intros C N. rewrite v2_neg_all by (eapply Forall_impl; [exact canonical_u64|exact C]).
  induction x as [|a x IH]; [reflexivity|]. inversion C; inversion N; subst. cbn [map]. f_equal; [apply neg_nonzero; assumption|apply IH; assumption].
Qed.
Lemma v5_neg_nz x : Forall canonical x -> Forall (fun a => a <> 0) x -> v5_neg x = map (fun a => (- a) mod P) x.
Proof.
  intros C N. rewrite v5_neg_all by (eapply Forall_impl; [exact canonical_u64|exact C]).
  induction x as [|a x IH]; [reflexivity|]. inversion C; inversion N; subst. cbn [map]. f_equal; [apply neg_nonzero; assumption|apply IH; assumption].
Qed.
Lemma neg_mod a : (P - a mod P) mod P = (- a) mod P.
Proof.
  replace (P - a mod P) with (0 - a mod P + 1 * P) by lia. rewrite Z.mod_add by lia. rewrite Zminus_mod_idemp_r. reflexivity.
Qed.
Lemma v2_neg_zero x i : Forall canonical x -> (i < length x)%nat -> nth i x 1 = 0 -> nth i (v2_neg x) 0 = P.
Proof.
  intros C L Z0. rewrite v2_neg_all by (eapply Forall_impl; [exact canonical_u64|exact C]).
  rewrite (nth_indep _ 0 ((fun a => P - a mod P) 1)) by (rewrite map_length; exact L).
  rewrite (map_nth (fun a => P - a mod P)), Z0. reflexivity.
Qed.
Lemma v5_neg_zero x i : Forall canonical x -> (i < length x)%nat -> nth i x 1 = 0 -> nth i (v5_neg x) 0 = P.
Proof.
  intros C L Z0. rewrite v5_neg_all by (eapply Forall_impl; [exact canonical_u64|exact C]).
  rewrite (nth_indep _ 0 ((fun a => P - a mod P) 1)) by (rewrite map_length; exact L).
  rewrite (map_nth (fun a => P - a mod P)), Z0. reflexivity.
Qed.

(** * Division by a scalar *)

Lemma splat_len c x : length (splat c x) = length x. Proof. apply map_length. Qed.
Lemma map2_splat (f : Z -> Z -> Z) c x : map2 f x (splat c x) = map (fun a => f a c) x.
Proof. induction x as [|a x IH]; [reflexivity|]. cbn [splat map map2]. f_equal. exact IH. Qed.
Lemma splat_all (Q : Z -> Prop) c x : Q c -> Forall Q (splat c x).
Proof. intros. induction x; constructor; assumption. Qed.

Lemma div_some rhs : canonical rhs -> rhs <> 0 ->
  exists r i, from_repr rhs = Ok r /\ inverse r = Some i /\ canonical (into_repr i) /\ (into_repr i * rhs) mod P = 1.
Proof.
  intros C N. destruct (from_repr_ok rhs C) as (r & E & F & A).
  assert (R : r <> 0) by (intros ->; apply N; rewrite <- A; vm_compute; reflexivity).
  destruct (inverse_spec r F R) as (i & I & Fi & _ & V). exists r, i.
  split; [exact E|]. split; [exact I|]. split; [exact (as_int_range i Fi)|].
  change (into_repr i) with (as_int i). rewrite <- A, Z.mul_comm. exact V.
Qed.

Lemma div_lane a i rhs : canonical a -> (i * rhs) mod P = 1 -> ((a * i) mod P * rhs) mod P = a.
Proof.
  intros C V. rewrite Z.mul_mod_idemp_l by lia. rewrite <- Z.mul_assoc, <- Z.mul_mod_idemp_r by lia. rewrite V, Z.mul_1_r.
  apply Z.mod_small. exact C.
Qed.
Lemma v2_div_spec x rhs : Forall canonical x -> canonical rhs -> rhs <> 0 ->
  exists q, v2_div x rhs = Ok q /\ Forall canonical q /\ map (fun a => (a * rhs) mod P) q = x.
Proof.
  intros C R N. destruct (div_some rhs R N) as (r & i & E & I & Ci & V). unfold v2_div. rewrite E, I.
  rewrite v2_mul_all; [|symmetry; apply splat_len|eapply Forall_impl; [exact canonical_u64|exact C]|apply splat_all; apply canonical_u64; exact Ci].
  rewrite map2_splat. eexists. split; [reflexivity|]. split.
  - clear C. induction x; constructor; [apply Z.mod_pos_bound; lia|assumption].
  - rewrite map_map. clear E I. induction C as [|a x Ca C IH]; [reflexivity|]. cbn [map]. rewrite (div_lane _ _ _ Ca V). f_equal. exact IH.
Qed.
Lemma v5_div_spec x rhs : Forall canonical x -> canonical rhs -> rhs <> 0 ->
  exists q, v5_div x rhs = Ok q /\ Forall canonical q /\ map (fun a => (a * rhs) mod P) q = x.
Proof.
  intros C R N. destruct (div_some rhs R N) as (r & i & E & I & Ci & V). unfold v5_div. rewrite E, I.
  rewrite v5_mul_all; [|symmetry; apply splat_len|eapply Forall_impl; [exact canonical_u64|exact C]|apply splat_all; apply canonical_u64; exact Ci].
  rewrite map2_splat. eexists. split; [reflexivity|]. split.
  - clear C. induction x; constructor; [apply Z.mod_pos_bound; lia|assumption].
  - rewrite map_map. clear E I. induction C as [|a x Ca C IH]; [reflexivity|]. cbn [map]. rewrite (div_lane _ _ _ Ca V). f_equal. exact IH.
Qed.
Lemma div_zero_repr : from_repr 0 = Ok 0 /\ inverse 0 = Some 0 /\ into_repr 0 = 0.
Proof. vm_compute. auto. Qed.
Lemma div_by_zero x : Forall canonical x -> v2_div x 0 = Ok (map (fun _ => 0) x) /\ v5_div x 0 = Ok (map (fun _ => 0) x).
Proof.
  intros C. destruct div_zero_repr as (E & I & R). unfold v2_div, v5_div. rewrite E, I, R.
  assert (U : Forall u64 x) by (eapply Forall_impl; [exact canonical_u64|exact C]).
  rewrite v2_mul_all, v5_mul_all; try (symmetry; apply splat_len); try exact U; try (apply splat_all; unfold u64; lia).
  rewrite map2_splat. split; f_equal; apply map_ext; intros a; rewrite Z.mul_0_r; reflexivity.
Qed.
Lemma div_rejects x rhs : P <= rhs -> v2_div x rhs = Panic /\ v5_div x rhs = Panic.
Proof. intros L. destruct (from_repr_rejects rhs L) as [E _]. unfold v2_div, v5_div. rewrite E. auto. Qed.

(** * Interleaving *)

(* documented in packed.rs: blocks of b lanes; the even blocks of both operands go to the first
   result, the odd blocks to the second *)
Definition il0 (b : nat) (x y : list Z) : list Z :=
  map (fun i => if Nat.even (i / b) then nth i x 0 else nth (i - b) y 0) (seq 0 (length x)).
Definition il1 (b : nat) (x y : list Z) : list Z :=
  map (fun i => if Nat.even (i / b) then nth (i + b) x 0 else nth i y 0) (seq 0 (length x)).

Ltac lanes l n := match n with O => destruct l; [|discriminate] | S ?k => destruct l as [|? l]; [discriminate|lanes l k] end.
Lemma v2_interleave_spec x y b : length x = 4%nat -> length y = 4%nat -> In b [1; 2; 4]%nat ->
  v2_interleave x y (Z.of_nat b) = Ok (if (b =? 4)%nat then (x, y) else (il0 b x y, il1 b x y)).
Proof. intros LX LY B. lanes x 4%nat. lanes y 4%nat. cbn in B. destruct B as [<-|[<-|[<-|[]]]]; reflexivity. Qed.
Lemma v5_interleave_spec x y b : length x = 8%nat -> length y = 8%nat -> In b [1; 2; 4; 8]%nat ->
  v5_interleave x y (Z.of_nat b) = Ok (if (b =? 8)%nat then (x, y) else (il0 b x y, il1 b x y)).
Proof. intros LX LY B. lanes x 8%nat. lanes y 8%nat. cbn in B. destruct B as [<-|[<-|[<-|[<-|[]]]]]; reflexivity. Qed.
Lemma v2_interleave_inv x y b : length x = 4%nat -> length y = 4%nat -> In b [1; 2; 4] ->
  bind (v2_interleave x y b) (fun p => v2_interleave (fst p) (snd p) b) = Ok (x, y).
Proof. intros LX LY B. lanes x 4%nat. lanes y 4%nat. cbn in B. destruct B as [<-|[<-|[<-|[]]]]; reflexivity. Qed.
Lemma v5_interleave_inv x y b : length x = 8%nat -> length y = 8%nat -> In b [1; 2; 4; 8] ->
  bind (v5_interleave x y b) (fun p => v5_interleave (fst p) (snd p) b) = Ok (x, y).
Proof. intros LX LY B. lanes x 8%nat. lanes y 8%nat. cbn in B. destruct B as [<-|[<-|[<-|[<-|[]]]]]; reflexivity. Qed.
Lemma interleave_rejects x y b : ~ In b [1; 2; 4] -> v2_interleave x y b = Panic /\ (b <> 8 -> v5_interleave x y b = Panic).
Proof.
  intros N. cbn in N. unfold v2_interleave, v5_interleave.
  replace (b =? 1) with false by (symmetry; apply Z.eqb_neq; lia). replace (b =? 2) with false by (symmetry; apply Z.eqb_neq; lia).
  replace (b =? 4) with false by (symmetry; apply Z.eqb_neq; lia). split; [reflexivity|]. intros M.
  replace (b =? 8) with false by (symmetry; apply Z.eqb_neq; lia). reflexivity.
Qed.

(** * Collected *)

Lemma v2_lanes x y : length x = 4%nat -> length y = 4%nat -> Forall u64 x -> Forall u64 y ->
  v2_add x y = map2 (fun a b => (a + b) mod P) x y /\
  v2_mul x y = map2 (fun a b => (a * b) mod P) x y /\
  v2_square x = map (fun a => (a * a) mod P) x /\
  (Forall canonical x -> v2_sub x y = map2 (fun a b => (a - b) mod P) x y).
Proof.
  intros LX LY X Y. assert (L : length x = length y) by congruence.
  split; [apply v2_add_all; assumption|]. split; [apply v2_mul_all; assumption|]. split; [apply v2_square_all; assumption|].
  intros C. apply v2_sub_all; assumption.
Qed.
Lemma v5_lanes x y : length x = 8%nat -> length y = 8%nat -> Forall u64 x -> Forall u64 y ->
  v5_add x y = map2 (fun a b => (a + b) mod P) x y /\
  v5_mul x y = map2 (fun a b => (a * b) mod P) x y /\
  v5_square x = map (fun a => (a * a) mod P) x /\
  (Forall canonical x -> v5_sub x y = map2 (fun a b => (a - b) mod P) x y).
Proof.
  intros LX LY X Y. assert (L : length x = length y) by congruence.
  split; [apply v5_add_all; assumption|]. split; [apply v5_mul_all; assumption|]. split; [apply v5_square_all; assumption|].
  intros C. apply v5_sub_all; assumption.
Qed.
Lemma reduce_both h l : length h = length l -> Forall u64 h -> Forall u64 l ->
  v2_reduce128 (h, l) = map2 (fun a b => (a * 2 ^ 64 + b) mod P) h l /\
  v5_reduce128 (h, l) = map2 (fun a b => (a * 2 ^ 64 + b) mod P) h l.
Proof. intros L A B. split; [exact (v2_reduce_all h l L A B)|exact (v5_reduce_all h l L A B)]. Qed.
Lemma sub_any_both x y : u64 x -> u64 y ->
  (exists z, v2_sub [x] [y] = [z] /\ u64 z /\ z mod P = (x - y) mod P) /\
  (exists z, v5_sub [x] [y] = [z] /\ u64 z /\ z mod P = (x - y) mod P).
Proof. intros. split; [apply v2_sub_any|apply v5_sub_any]; assumption. Qed.
Lemma neg_both x : Forall canonical x ->
  (Forall (fun a => a <> 0) x -> v2_neg x = map (fun a => (- a) mod P) x /\ v5_neg x = map (fun a => (- a) mod P) x) /\
  map (fun a => a mod P) (v2_neg x) = map (fun a => (- a) mod P) x /\
  map (fun a => a mod P) (v5_neg x) = map (fun a => (- a) mod P) x.
Proof.
  intros C. split; [intros N; split; [apply v2_neg_nz|apply v5_neg_nz]; assumption|].
  assert (U : Forall u64 x) by (eapply Forall_impl; [exact canonical_u64|exact C]).
  rewrite v2_neg_all, v5_neg_all by exact U. rewrite map_map. split; apply map_ext; exact neg_mod.
Qed.
Lemma neg_zero_both x i : Forall canonical x -> (i < length x)%nat -> nth i x 1 = 0 ->
  nth i (v2_neg x) 0 = P /\ nth i (v5_neg x) 0 = P /\
  from_repr (nth i (v2_neg x) 0) = Err /\ from_repr (nth i (v5_neg x) 0) = Err.
Proof.
  intros C L Z0. rewrite (v2_neg_zero x i C L Z0), (v5_neg_zero x i C L Z0). repeat split; reflexivity.
Qed.
Lemma div_both x rhs : Forall canonical x -> canonical rhs -> rhs <> 0 ->
  (exists q, v2_div x rhs = Ok q /\ Forall canonical q /\ map (fun a => (a * rhs) mod P) q = x) /\
  (exists q, v5_div x rhs = Ok q /\ Forall canonical q /\ map (fun a => (a * rhs) mod P) q = x).
Proof. intros. split; [apply v2_div_spec|apply v5_div_spec]; assumption. Qed.
Lemma interleave_both x y b :
  (length x = 4%nat -> length y = 4%nat -> In b [1; 2; 4]%nat ->
     v2_interleave x y (Z.of_nat b) = Ok (if (b =? 4)%nat then (x, y) else (il0 b x y, il1 b x y))) /\
  (length x = 8%nat -> length y = 8%nat -> In b [1; 2; 4; 8]%nat ->
     v5_interleave x y (Z.of_nat b) = Ok (if (b =? 8)%nat then (x, y) else (il0 b x y, il1 b x y))).
Proof. split; [apply v2_interleave_spec|apply v5_interleave_spec]. Qed.
Lemma interleave_inv_both x y b :
  (length x = 4%nat -> length y = 4%nat -> In b [1; 2; 4] ->
     bind (v2_interleave x y b) (fun p => v2_interleave (fst p) (snd p) b) = Ok (x, y)) /\
  (length x = 8%nat -> length y = 8%nat -> In b [1; 2; 4; 8] ->
     bind (v5_interleave x y b) (fun p => v5_interleave (fst p) (snd p) b) = Ok (x, y)).
Proof. split; [apply v2_interleave_inv|apply v5_interleave_inv]. Qed.
