(* Byte level facts, 32-bit limbs and the witness file format. *)
From Verif Require Import Base ListAux BinModel.
Open Scope Z_scope.
Open Scope res_scope.

Definition isbyte (b : Z) : Prop := 0 <= b < 256.
Definition isword (w : Z) : Prop := 0 <= w < 2 ^ 32.

(** ** bytes *)
Lemma le_bytes_len : forall n v, length (le_bytes n v) = n.
Proof. induction n; intros; cbn [le_bytes length]; [reflexivity|rewrite IHn; reflexivity]. Qed.
Lemma le_bytes_byte : forall n v, Forall isbyte (le_bytes n v).
Proof.
  induction n; intros; cbn [le_bytes]; constructor; [|apply IHn].
  unfold isbyte. apply Z.mod_pos_bound. lia.
Qed.
Lemma pow256_S : forall n, 256 ^ Z.of_nat (S n) = 256 * 256 ^ Z.of_nat n.
Proof. intros. rewrite Nat2Z.inj_succ, Z.pow_succ_r by lia. reflexivity. Qed.
Lemma pow256_pos : forall n, 0 < 256 ^ Z.of_nat n.
Proof. intros. apply Z.pow_pos_nonneg; lia. Qed.
Lemma le_val_bytes : forall n v, 0 <= v -> le_val (le_bytes n v) = v mod 256 ^ Z.of_nat n.
Proof.
  induction n; intros v Hv.
  - cbn [le_bytes le_val]. change (256 ^ Z.of_nat 0) with 1. rewrite Z.mod_1_r. reflexivity.
  - cbn [le_bytes le_val]. rewrite IHn by (apply Z.div_pos; lia).
    rewrite pow256_S. pose proof (pow256_pos n).
    rewrite Z.rem_mul_r by lia. reflexivity.
Qed.
Lemma le_val_small : forall n v, 0 <= v < 256 ^ Z.of_nat n -> le_val (le_bytes n v) = v.
Proof. intros n v H. rewrite le_val_bytes by lia. apply Z.mod_small. exact H. Qed.
Lemma le_val_bound : forall l, Forall isbyte l -> 0 <= le_val l < 256 ^ Z.of_nat (length l).
Proof.
  induction 1 as [|b l Hb _ IH]; cbn [le_val length].
  - change (256 ^ Z.of_nat 0) with 1. lia.
  - rewrite pow256_S. unfold isbyte in Hb. lia.
Qed.
Lemma le_bytes_val : forall l, Forall isbyte l -> le_bytes (length l) (le_val l) = l.
Proof.
  induction 1 as [|b l Hb Hl IH]; cbn [le_val length le_bytes]; [reflexivity|].
  unfold isbyte in Hb. pose proof (le_val_bound l Hl).
  f_equal.
  - rewrite Z.mul_comm, Z.mod_add by lia. apply Z.mod_small. lia.
  - rewrite Z.mul_comm, Z.div_add by lia. rewrite (Z.div_small b 256) by lia. exact IH.
Qed.
Lemma le_val_app : forall a b, le_val (a ++ b) = le_val a + 256 ^ Z.of_nat (length a) * le_val b.
Proof.
  induction a; intros; cbn [app le_val length].
  - change (256 ^ Z.of_nat 0) with 1. lia.
  - rewrite IHa, pow256_S. ring.
Qed.

(** ** reading *)
Lemma take_app {A} (a b : list A) n : length a = n -> firstn n (a ++ b) = a.
Proof.
  intros <-. rewrite firstn_app, Nat.sub_diag. cbn [firstn]. rewrite app_nil_r. apply firstn_all.
Qed.
Lemma drop_app {A} (a b : list A) n : length a = n -> skipn n (a ++ b) = b.
Proof. intros <-. rewrite skipn_app, Nat.sub_diag, (skipn_all2 a) by lia. reflexivity. Qed.
Lemma read_exact_app : forall n a r, Z.of_nat (length a) = n -> read_exact n (a ++ r) = Ok (a, r).
Proof.
  intros n a r H. unfold read_exact. rewrite app_length.
  replace (n <=? Z.of_nat (length a + length r)) with true by (symmetry; apply Z.leb_le; lia).
  replace (Z.to_nat n) with (length a) by lia.
  rewrite take_app, drop_app by reflexivity. reflexivity.
Qed.
Lemma read_exact_inv : forall n l b r, read_exact n l = Ok (b, r) -> 0 <= n -> l = b ++ r /\ Z.of_nat (length b) = n.
Proof.
  intros n l b r H Hn. unfold read_exact in H.
  destruct (n <=? Z.of_nat (length l)) eqn:E; [|discriminate H].
  apply Z.leb_le in E. assert (b = firstn (Z.to_nat n) l /\ r = skipn (Z.to_nat n) l) as [-> ->] by (split; congruence).
  rewrite firstn_skipn, firstn_length. split; [reflexivity|lia].
Qed.
Lemma read_exact_cases : forall n l, (exists b r, read_exact n l = Ok (b, r)) \/ read_exact n l = Err.
Proof. intros. unfold read_exact. destruct (n <=? _); [left; eauto|right; reflexivity]. Qed.
Lemma u32_len : forall v, length (u32 v) = 4%nat.
Proof. intros. apply le_bytes_len. Qed.
Lemma u64_len : forall v, length (u64 v) = 8%nat.
Proof. intros. apply le_bytes_len. Qed.
Lemma read_u32_app : forall v r, 0 <= v < 2 ^ 32 -> read_u32 (u32 v ++ r) = Ok (v, r).
Proof.
  intros v r H. unfold read_u32. rewrite (read_exact_app 4) by (rewrite u32_len; reflexivity).
  cbn [bind]. unfold u32. rewrite le_val_small; [reflexivity|exact H].
Qed.
Lemma read_u64_app : forall v r, 0 <= v < 2 ^ 64 -> read_u64 (u64 v ++ r) = Ok (v, r).
Proof.
  intros v r H. unfold read_u64. rewrite (read_exact_app 8) by (rewrite u64_len; reflexivity).
  cbn [bind]. unfold u64. rewrite le_val_small; [reflexivity|exact H].
Qed.
Lemma Forall_app_l {A} (P : A -> Prop) : forall a b, Forall P (a ++ b) -> Forall P a.
Proof. intros a b H. apply Forall_app in H. apply H. Qed.
Lemma Forall_app_r {A} (P : A -> Prop) : forall a b, Forall P (a ++ b) -> Forall P b.
Proof. intros a b H. apply Forall_app in H. apply H. Qed.
Lemma read_u32_inv : forall l v r, read_u32 l = Ok (v, r) -> Forall isbyte l ->
  l = u32 v ++ r /\ 0 <= v < 2 ^ 32.
Proof.
  intros l v r H Hl. unfold read_u32 in H.
  destruct (read_exact 4 l) as [[b r']| | |] eqn:E; try discriminate H. cbn [bind] in H.
  assert (r' = r) by congruence. assert (v = le_val b) by congruence. subst.
  apply read_exact_inv in E; [|lia]. destruct E as [-> Hb].
  pose proof (Forall_app_l _ _ _ Hl) as Hbb. pose proof (le_val_bound b Hbb) as B. rewrite Hb in B.
  split; [|exact B]. f_equal. unfold u32. replace 4%nat with (length b) by lia. symmetry. apply le_bytes_val. exact Hbb.
Qed.
Lemma read_u64_inv : forall l v r, read_u64 l = Ok (v, r) -> Forall isbyte l ->
  l = u64 v ++ r /\ 0 <= v < 2 ^ 64.
Proof.
  intros l v r H Hl. unfold read_u64 in H.
  destruct (read_exact 8 l) as [[b r']| | |] eqn:E; try discriminate H. cbn [bind] in H.
  assert (r' = r) by congruence. assert (v = le_val b) by congruence. subst.
  apply read_exact_inv in E; [|lia]. destruct E as [-> Hb].
  pose proof (Forall_app_l _ _ _ Hl) as Hbb. pose proof (le_val_bound b Hbb) as B. rewrite Hb in B.
  split; [|exact B]. f_equal. unfold u64. replace 8%nat with (length b) by lia. symmetry. apply le_bytes_val. exact Hbb.
Qed.
Lemma read_u32_cases : forall l, (exists v r, read_u32 l = Ok (v, r)) \/ read_u32 l = Err.
Proof.
  intros. unfold read_u32. destruct (read_exact_cases 4 l) as [(b & r & ->)| ->]; cbn [bind]; [left; eauto|right; reflexivity].
Qed.
Lemma read_u64_cases : forall l, (exists v r, read_u64 l = Ok (v, r)) \/ read_u64 l = Err.
Proof.
  intros. unfold read_u64. destruct (read_exact_cases 8 l) as [(b & r & ->)| ->]; cbn [bind]; [left; eauto|right; reflexivity].
Qed.

(* a reader that recovers what [enc] writes *)
Definition reads {A} (rd : list byte -> res (A * list byte)) (enc : A -> list byte) (P : A -> Prop) : Prop :=
  forall a r, P a -> rd (enc a ++ r) = Ok (a, r).

Lemma read_many_fuel_app {A} (rd : list byte -> res (A * list byte)) (enc : A -> list byte) (P : A -> Prop) :
  reads rd enc P ->
  forall (xs : list A) fuel r, Forall P xs -> (length xs <= fuel)%nat ->
    read_many_fuel fuel rd (Z.of_nat (length xs)) (concat (map enc xs) ++ r) = Ok (xs, r).
Proof.
  intros Hrd. induction xs as [|x xs IH]; intros fuel r HP Hf.
  - destruct fuel; reflexivity.
  - destruct fuel as [|fuel]; [cbn [length] in Hf; lia|].
    cbn [map concat]. rewrite <- app_assoc. cbn [read_many_fuel].
    replace (Z.of_nat (length (x :: xs)) <=? 0) with false by (symmetry; apply Z.leb_gt; cbn [length]; lia).
    inversion HP; subst. rewrite Hrd by assumption. cbn [bind].
    replace (Z.of_nat (length (x :: xs)) - 1) with (Z.of_nat (length xs)) by (cbn [length]; lia).
    rewrite IH by (auto; cbn [length] in Hf; lia). reflexivity.
Qed.
Lemma concat_enc_len {A} (enc : A -> list byte) (P : A -> Prop) : (forall a, P a -> (1 <= length (enc a))%nat) ->
  forall xs, Forall P xs -> (length xs <= length (concat (map enc xs)))%nat.
Proof.
  intros H. induction 1 as [|x xs Hx _ IH]; cbn [map concat length]; [lia|].
  rewrite app_length. specialize (H x Hx). lia.
Qed.
Lemma read_many_app {A} (rd : list byte -> res (A * list byte)) (enc : A -> list byte) (P : A -> Prop) :
  reads rd enc P -> (forall a, P a -> (1 <= length (enc a))%nat) ->
  forall (xs : list A) n r, Forall P xs -> n = Z.of_nat (length xs) ->
    read_many rd n (concat (map enc xs) ++ r) = Ok (xs, r).
Proof.
  intros Hrd He xs n r HP ->. unfold read_many.
  apply read_many_fuel_app with (P := P); [exact Hrd|exact HP|].
  rewrite app_length. pose proof (concat_enc_len enc P He xs HP). lia.
Qed.

(* a reader that takes at least one byte, and gives no more than it was given *)
Definition shrinks {A} (rd : list byte -> res (A * list byte)) : Prop :=
  forall l a r, rd l = Ok (a, r) -> (S (length r) <= length l)%nat.
Definition no_hang {A} (r : res A) : Prop := r <> Hang.
Definition ok_or_err {A} (r : res A) : Prop := (exists a, r = Ok a) \/ r = Err.

Lemma read_many_fuel_shrinks {A} (rd : list byte -> res (A * list byte)) : shrinks rd ->
  forall fuel n l xs r, read_many_fuel fuel rd n l = Ok (xs, r) -> (length r <= length l)%nat.
Proof.
  intros Hs. induction fuel as [|fuel IH]; intros n l xs r H; cbn [read_many_fuel] in H.
  - destruct (n <=? 0); [|discriminate H]. assert (r = l) by congruence. subst. lia.
  - destruct (n <=? 0); [assert (r = l) by congruence; subst; lia|].
    destruct (rd l) as [[a l']| | |] eqn:E; try discriminate H. cbn [bind] in H.
    destruct (read_many_fuel fuel rd (n - 1) l') as [[ys r']| | |] eqn:E2; try discriminate H. cbn [bind] in H.
    assert (r' = r) by congruence. subst. apply Hs in E. apply IH in E2. lia.
Qed.
Lemma read_many_fuel_nohang {A} (rd : list byte -> res (A * list byte)) : shrinks rd -> (forall l, no_hang (rd l)) ->
  forall fuel n l, (length l < fuel)%nat -> no_hang (read_many_fuel fuel rd n l).
Proof.
  intros Hs Hh. induction fuel as [|fuel IH]; intros n l Hf; [lia|].
  cbn [read_many_fuel]. destruct (n <=? 0); [intro K; discriminate K|].
  destruct (rd l) as [[a l']| | |] eqn:E; cbn [bind]; try (intro K; discriminate K).
  - apply Hs in E. specialize (IH (n - 1) l' ltac:(lia)).
    destruct (read_many_fuel fuel rd (n - 1) l') as [[ys r']| | |]; cbn [bind]; try (intro K; discriminate K).
    exact (fun _ => IH eq_refl).
  - exact (fun _ => Hh l E).
Qed.
Lemma read_many_nohang {A} (rd : list byte -> res (A * list byte)) : shrinks rd -> (forall l, no_hang (rd l)) ->
  forall n l, no_hang (read_many rd n l).
Proof. intros Hs Hh n l. apply read_many_fuel_nohang; auto. Qed.
Lemma read_many_fuel_oe {A} (rd : list byte -> res (A * list byte)) : shrinks rd -> (forall l, ok_or_err (rd l)) ->
  forall fuel n l, (length l < fuel)%nat -> ok_or_err (read_many_fuel fuel rd n l).
Proof.
  intros Hs Hh. induction fuel as [|fuel IH]; intros n l Hf; [lia|].
  cbn [read_many_fuel]. destruct (n <=? 0); [left; eauto|].
  destruct (Hh l) as [[[a l'] E]|E]; rewrite E; cbn [bind]; [|right; reflexivity].
  apply Hs in E. destruct (IH (n - 1) l' ltac:(lia)) as [[[ys r'] E2]|E2]; rewrite E2; cbn [bind]; [left; eauto|right; reflexivity].
Qed.
Lemma read_many_oe {A} (rd : list byte -> res (A * list byte)) : shrinks rd -> (forall l, ok_or_err (rd l)) ->
  forall n l, ok_or_err (read_many rd n l).
Proof. intros Hs Hh n l. apply read_many_fuel_oe; auto. Qed.

Lemma read_exact_shrinks : forall n, 1 <= n -> shrinks (read_exact n).
Proof. intros n Hn l b r H. apply read_exact_inv in H; [|lia]. destruct H as [-> Hb]. rewrite app_length. lia. Qed.
Lemma read_u32_shrinks : shrinks read_u32.
Proof.
  intros l v r H. unfold read_u32 in H. destruct (read_exact 4 l) as [[b r']| | |] eqn:E; try discriminate H.
  cbn [bind] in H. assert (r' = r) by congruence. subst. apply (read_exact_shrinks 4) in E; lia.
Qed.
Lemma read_u64_shrinks : shrinks read_u64.
Proof.
  intros l v r H. unfold read_u64 in H. destruct (read_exact 8 l) as [[b r']| | |] eqn:E; try discriminate H.
  cbn [bind] in H. assert (r' = r) by congruence. subst. apply (read_exact_shrinks 8) in E; lia.
Qed.
Lemma read_field_shrinks : forall q rb, 1 <= rb -> shrinks (read_field q rb).
Proof.
  intros q rb Hr l v r H. unfold read_field in H. destruct (read_exact rb l) as [[b r']| | |] eqn:E; try discriminate H.
  cbn [bind] in H. destruct (le_val b <? q); [|discriminate H].
  assert (r' = r) by congruence. subst. apply (read_exact_shrinks rb) in E; lia.
Qed.
Lemma read_field_oe : forall q rb l, ok_or_err (read_field q rb l).
Proof.
  intros. unfold read_field. destruct (read_exact_cases rb l) as [(b & r & ->)| ->]; cbn [bind]; [|right; reflexivity].
  destruct (_ <? q); [left; eauto|right; reflexivity].
Qed.
Lemma read_field_app : forall q rb v r, 0 <= v < q -> q <= 256 ^ Z.of_nat rb ->
  read_field q (Z.of_nat rb) (le_bytes rb v ++ r) = Ok (v, r).
Proof.
  intros q rb v r Hv Hq. unfold read_field. rewrite read_exact_app by (rewrite le_bytes_len; reflexivity).
  cbn [bind]. rewrite le_val_small by lia. replace (v <? q) with true by (symmetry; apply Z.ltb_lt; lia). reflexivity.
Qed.

(* inversion of repeated reading *)
Lemma read_many_fuel_inv {A} (rd : list byte -> res (A * list byte)) (enc : A -> list byte) (P : A -> Prop) :
  (forall l a r, Forall isbyte l -> rd l = Ok (a, r) -> l = enc a ++ r /\ P a) ->
  forall fuel n l xs r, Forall isbyte l -> 0 <= n -> read_many_fuel fuel rd n l = Ok (xs, r) ->
    l = concat (map enc xs) ++ r /\ Forall P xs /\ Z.of_nat (length xs) = n.
Proof.
  intros Hrd. induction fuel as [|fuel IH]; intros n l xs r Hl Hn H; cbn [read_many_fuel] in H.
  - destruct (n <=? 0) eqn:E; [|discriminate H]. apply Z.leb_le in E.
    assert (xs = []) by congruence. assert (r = l) by congruence. subst. repeat split; [constructor|cbn [length]; lia].
  - destruct (n <=? 0) eqn:E0.
    + apply Z.leb_le in E0. assert (xs = []) by congruence. assert (r = l) by congruence. subst.
      repeat split; [constructor|cbn [length]; lia].
    + apply Z.leb_gt in E0. destruct (rd l) as [[a l']| | |] eqn:E; try discriminate H. cbn [bind] in H.
      destruct (read_many_fuel fuel rd (n - 1) l') as [[ys r']| | |] eqn:E2; try discriminate H. cbn [bind] in H.
      assert (xs = a :: ys) by congruence. assert (r' = r) by congruence. subst.
      apply Hrd in E; [|exact Hl]. destruct E as [-> HP].
      apply IH in E2; [|exact (Forall_app_r _ _ _ Hl)|lia]. destruct E2 as (-> & HF & HL).
      cbn [map concat length]. rewrite <- app_assoc. repeat split; [constructor; assumption|lia].
Qed.
Lemma read_field_inv : forall q rb l v r, read_field q (Z.of_nat rb) l = Ok (v, r) -> Forall isbyte l ->
  l = le_bytes rb v ++ r /\ 0 <= v < q.
Proof.
  intros q rb l v r H Hl. unfold read_field in H.
  destruct (read_exact (Z.of_nat rb) l) as [[b r']| | |] eqn:E; try discriminate H. cbn [bind] in H.
  destruct (le_val b <? q) eqn:Eq; [|discriminate H]. apply Z.ltb_lt in Eq.
  assert (r' = r) by congruence. assert (v = le_val b) by congruence. subst.
  apply read_exact_inv in E; [|lia]. destruct E as [-> Hb].
  pose proof (Forall_app_l _ _ _ Hl) as Hbb. pose proof (le_val_bound b Hbb) as B.
  split; [|lia]. f_equal. replace rb with (length b) by lia. symmetry. apply le_bytes_val. exact Hbb.
Qed.

(** ** limbs *)
Lemma from_array32_app : forall a v, from_array32 (a ++ [v]) = from_array32 a * 2 ^ 32 + v.
Proof. intros. unfold from_array32. rewrite fold_left_app. reflexivity. Qed.
Lemma fold_shift : forall l a, fold_left (fun r v => r * 0x100000000 + v) l a
  = a * 2 ^ (32 * Z.of_nat (length l)) + from_array32 l.
Proof.
  induction l as [|x l IH]; intros a; cbn [fold_left length].
  - unfold from_array32. cbn [fold_left]. change (32 * Z.of_nat 0) with 0. change (2 ^ 0) with 1. lia.
  - unfold from_array32. cbn [fold_left]. rewrite !IH.
    replace (32 * Z.of_nat (S (length l))) with (32 + 32 * Z.of_nat (length l)) by lia.
    rewrite Z.pow_add_r by lia. change 0x100000000 with (2 ^ 32). ring.
Qed.
Lemma from_array32_cons : forall x l, from_array32 (x :: l) = x * 2 ^ (32 * Z.of_nat (length l)) + from_array32 l.
Proof. intros. unfold from_array32 at 1. cbn [fold_left]. rewrite fold_shift. change 0x100000000 with (2 ^ 32). ring. Qed.
Lemma from_array32_zeros : forall c l, from_array32 (repeat 0 c ++ l) = from_array32 l.
Proof. induction c; intros; cbn [repeat app]; [reflexivity|]. rewrite from_array32_cons, IHc. ring. Qed.
Lemma from_array32_bound : forall l, Forall isword l -> 0 <= from_array32 l < 2 ^ (32 * Z.of_nat (length l)).
Proof.
  induction 1 as [|x l Hx _ IH].
  - unfold from_array32. cbn [fold_left length]. change (32 * Z.of_nat 0) with 0. change (2 ^ 0) with 1. lia.
  - rewrite from_array32_cons. cbn [length].
    replace (32 * Z.of_nat (S (length l))) with (32 + 32 * Z.of_nat (length l)) by lia.
    rewrite Z.pow_add_r by lia. unfold isword in Hx.
    set (p := 2 ^ (32 * Z.of_nat (length l))) in *. nia.
Qed.

Lemma to_loop_ok : forall c rem done, 0 <= rem < 2 ^ (32 * Z.of_nat c) -> Forall isword done ->
  exists l, to_array32_loop c rem done = Ok (l ++ done) /\ length l = c /\ Forall isword l /\ from_array32 l = rem.
Proof.
  induction c as [|c IH]; intros rem done Hr Hd.
  - change (32 * Z.of_nat 0) with 0 in Hr. change (2 ^ 0) with 1 in Hr. assert (rem = 0) by lia. subst.
    exists []. cbn [to_array32_loop]. repeat split; constructor.
  - cbn [to_array32_loop]. destruct (rem =? 0) eqn:E.
    + apply Z.eqb_eq in E. subst. exists (repeat 0 (S c)). repeat split.
      * apply repeat_length.
      * apply Forall_forall. intros x Hx. apply repeat_spec in Hx. subst. unfold isword. lia.
      * rewrite <- (app_nil_r (repeat 0 (S c))), from_array32_zeros. reflexivity.
    + rewrite Z.rem_mod_nonneg, Z.quot_div_nonneg by lia.
      change 0x100000000 with (2 ^ 32).
      pose proof (Z.mod_pos_bound rem (2 ^ 32) ltac:(lia)) as B.
      replace (rem mod 2 ^ 32 <? 0) with false by (symmetry; apply Z.ltb_ge; lia).
      destruct (IH (rem / 2 ^ 32) (rem mod 2 ^ 32 :: done)) as (l & E1 & L & F & V).
      * split; [apply Z.div_pos; lia|]. apply Z.div_lt_upper_bound; [lia|].
        rewrite <- Z.pow_add_r by lia. replace (32 + 32 * Z.of_nat c) with (32 * Z.of_nat (S c)) by lia. lia.
      * constructor; [exact B|exact Hd].
      * exists (l ++ [rem mod 2 ^ 32]). rewrite E1, <- app_assoc. repeat split.
        -- rewrite app_length. cbn [length]. lia.
        -- apply Forall_app. split; [exact F|]. constructor; [exact B|constructor].
        -- rewrite from_array32_app, V. pose proof (Z.div_mod rem (2 ^ 32) ltac:(lia)). lia.
Qed.
Lemma to_loop_neg : forall c rem done, rem < 0 -> to_array32_loop c rem done = Panic.
Proof.
  induction c as [|c IH]; intros rem done Hr; cbn [to_array32_loop];
    (destruct (rem =? 0) eqn:E; [apply Z.eqb_eq in E; lia|]); [reflexivity|].
  destruct (Z.rem rem 0x100000000 <? 0) eqn:E2; [reflexivity|]. apply Z.ltb_ge in E2.
  apply IH. pose proof (Z.quot_rem' rem 0x100000000).
  assert (Z.rem rem 0x100000000 <= 0) by (apply Z.rem_nonpos; lia).
  nia.
Qed.
Lemma to_loop_big : forall c rem done, 2 ^ (32 * Z.of_nat c) <= rem -> to_array32_loop c rem done = Panic.
Proof.
  induction c as [|c IH]; intros rem done Hr.
  - change (32 * Z.of_nat 0) with 0 in Hr. change (2 ^ 0) with 1 in Hr.
    cbn [to_array32_loop]. destruct (rem =? 0) eqn:E; [apply Z.eqb_eq in E; lia|reflexivity].
  - assert (0 < 2 ^ (32 * Z.of_nat (S c))) by (apply Z.pow_pos_nonneg; lia).
    cbn [to_array32_loop]. destruct (rem =? 0) eqn:E; [apply Z.eqb_eq in E; lia|].
    rewrite Z.quot_div_nonneg by lia.
    destruct (_ <? 0); [reflexivity|]. apply IH.
    apply Z.div_le_lower_bound; [lia|]. change 0x100000000 with (2 ^ 32). rewrite <- Z.pow_add_r by lia.
    replace (32 + 32 * Z.of_nat c) with (32 * Z.of_nat (S c)) by lia. exact Hr.
Qed.
Lemma to_array32_ok : forall s size, 0 <= s < 2 ^ (32 * Z.of_nat size) ->
  exists l, to_array32 s size = Ok l /\ length l = size /\ Forall isword l /\ from_array32 l = s.
Proof.
  intros s size H. destruct (to_loop_ok size s [] H (Forall_nil _)) as (l & E & R).
  exists l. unfold to_array32. rewrite E, app_nil_r. auto.
Qed.
Lemma to_array32_bad : forall s size, ~ 0 <= s < 2 ^ (32 * Z.of_nat size) -> to_array32 s size = Panic.
Proof.
  intros s size H. unfold to_array32. destruct (Z_lt_le_dec s 0); [apply to_loop_neg; assumption|].
  apply to_loop_big. lia.
Qed.
Lemma from_array32_inj : forall a b, length a = length b -> Forall isword a -> Forall isword b ->
  from_array32 a = from_array32 b -> a = b.
Proof.
  induction a as [|x a IH]; intros [|y b] L Ha Hb E; try discriminate L; [reflexivity|].
  injection L as L. inversion Ha; inversion Hb; subst. rewrite !from_array32_cons, L in E.
  pose proof (from_array32_bound a ltac:(assumption)) as Ba. pose proof (from_array32_bound b ltac:(assumption)) as Bb.
  rewrite L in Ba. set (p := 2 ^ (32 * Z.of_nat (length b))) in *.
  assert (x = y) by nia. subst. f_equal. apply IH; auto. lia.
Qed.
Lemma limbs_roundtrip : forall s size,
  (0 <= s < 2 ^ (32 * Z.of_nat size) ->
     exists l, to_array32 s size = Ok l /\ length l = size /\ Forall isword l /\ from_array32 l = s) /\
  (~ 0 <= s < 2 ^ (32 * Z.of_nat size) -> to_array32 s size = Panic).
Proof. intros. split; [apply to_array32_ok|apply to_array32_bad]. Qed.
Lemma array_roundtrip : forall l, Forall isword l -> to_array32 (from_array32 l) (length l) = Ok l.
Proof.
  intros l H. destruct (to_array32_ok (from_array32 l) (length l) (from_array32_bound l H)) as (l' & E & L & F & V).
  rewrite E. f_equal. apply from_array32_inj; auto.
Qed.

(* the words of a value, low first *)
Fixpoint le_words (n : nat) (v : Z) : list Z :=
  match n with O => [] | S n => v mod 2 ^ 32 :: le_words n (v / 2 ^ 32) end.
Fixpoint words_val (l : list Z) : Z := match l with [] => 0 | w :: r => w + 2 ^ 32 * words_val r end.

Lemma words_val_rev : forall l, words_val l = from_array32 (rev l).
Proof.
  induction l as [|w l IH]; [reflexivity|]. cbn [words_val rev]. rewrite from_array32_app, IH. ring.
Qed.
Lemma le_words_len : forall n v, length (le_words n v) = n.
Proof. induction n; intros; cbn [le_words length]; [reflexivity|rewrite IHn; reflexivity]. Qed.
Lemma le_words_word : forall n v, Forall isword (le_words n v).
Proof. induction n; intros; cbn [le_words]; constructor; [|apply IHn]. apply Z.mod_pos_bound. lia. Qed.
Lemma le_words_val : forall n v, 0 <= v < 2 ^ (32 * Z.of_nat n) -> words_val (le_words n v) = v.
Proof.
  induction n; intros v H.
  - change (32 * Z.of_nat 0) with 0 in H. change (2 ^ 0) with 1 in H. cbn [le_words words_val]. lia.
  - cbn [le_words words_val]. rewrite IHn.
    + pose proof (Z.div_mod v (2 ^ 32) ltac:(lia)). lia.
    + split; [apply Z.div_pos; lia|]. apply Z.div_lt_upper_bound; [lia|].
      rewrite <- Z.pow_add_r by lia. replace (32 + 32 * Z.of_nat n) with (32 * Z.of_nat (S n)) by lia. lia.
Qed.

Lemma map_nth_all : forall l : list Z, map (fun j => nth j l 0) (seq 0 (length l)) = l.
Proof.
  induction l as [|x l IH]; [reflexivity|]. cbn [length seq map]. f_equal.
  rewrite <- seq_shift, map_map. exact IH.
Qed.
Lemma mapM_rev_get : forall l : list Z, mapM (fun j => vget l (length l - 1 - j)%nat) (seq 0 (length l)) = Ok (rev l).
Proof.
  intros l. rewrite (mapM_ok _ (fun j => nth j (rev l) 0)).
  - f_equal. rewrite <- (rev_length l). apply map_nth_all.
  - intros j Hj. apply in_seq in Hj. apply vget_some. rewrite rev_nth by lia.
    rewrite (nth_error_nth_lt l _ 0) by lia. do 2 f_equal. lia.
Qed.
Lemma input_words_ok : forall v n, 0 <= v < 2 ^ (32 * Z.of_nat n) ->
  exists ws, input_words v n = Ok ws /\ length ws = n /\ Forall isword ws /\ words_val ws = v.
Proof.
  intros v n H. destruct (to_array32_ok v n H) as (l & E & L & F & V).
  exists (rev l). unfold input_words. rewrite E. cbn [bind]. subst n. rewrite mapM_rev_get.
  repeat split; [apply rev_length|apply Forall_rev; exact F|]. rewrite words_val_rev, rev_involutive. exact V.
Qed.
Lemma input_words_bad : forall v n, ~ 0 <= v < 2 ^ (32 * Z.of_nat n) -> input_words v n = Panic.
Proof. intros v n H. unfold input_words. rewrite to_array32_bad by exact H. reflexivity. Qed.

(* the inner loop of witness_values *)
Lemma rev_fill : forall (src : list Z) n i, (i * n + n <= length src)%nat ->
  foldM (fun arr j => do w <- vget src (i * n + j)%nat; vset arr (n - 1 - j)%nat w) (seq 0 n) (repeat 0 n)
  = Ok (rev (firstn n (skipn (i * n) src))).
Proof.
  intros src n i H.
  enough (G : forall k, (k <= n)%nat -> exists arr,
    foldM (fun arr j => do w <- vget src (i * n + j)%nat; vset arr (n - 1 - j)%nat w) (seq 0 k) (repeat 0 n) = Ok arr
    /\ length arr = n /\ forall j, (j < k)%nat -> nth (n - 1 - j) arr 0 = nth (i * n + j) src 0).
  { destruct (G n ltac:(lia)) as (arr & E & L & V). rewrite E. f_equal.
    assert (L2 : length (firstn n (skipn (i * n) src)) = n) by (rewrite firstn_length, skipn_length; lia).
    apply nth_ext with 0 0; [rewrite rev_length; lia|].
    intros x Hx. rewrite L in Hx. rewrite rev_nth by lia. rewrite L2.
    replace x with (n - 1 - (n - 1 - x))%nat at 1 by lia. rewrite V by lia.
    assert (Q : forall y, (y < n)%nat -> nth y (firstn n (skipn (i * n) src)) 0 = nth (i * n + y) src 0).
    { intros y Hy. rewrite <- nth_skipn'. rewrite <- (firstn_skipn n (skipn (i * n) src)) at 2.
      rewrite app_nth1 by lia. reflexivity. }
    rewrite Q by lia. f_equal. lia. }
  induction k as [|k IH]; intros Hk.
  - exists (repeat 0 n). cbn [seq foldM]. repeat split; [apply repeat_length|lia].
  - destruct IH as (arr & E & L & V); [lia|].
    rewrite seq_S. cbn [Nat.add].
    assert (FA : forall A B (f : B -> A -> res B) l1 l2 b, foldM f (l1 ++ l2) b = bind (foldM f l1 b) (foldM f l2)).
    { intros A B f. induction l1 as [|a l1 IH1]; intros l2 b; [reflexivity|]. cbn [app foldM].
      destruct (f b a); cbn [bind]; [apply IH1|reflexivity|reflexivity|reflexivity]. }
    rewrite FA, E. cbn [bind foldM].
    rewrite (vget_some src (i * n + k) (nth (i * n + k) src 0)) by (apply nth_error_nth_lt; lia). cbn [bind].
    destruct (vset_ok arr (n - 1 - k) (nth (i * n + k) src 0)) as (arr' & E' & L' & V1 & V2); [lia|].
    rewrite E'. cbn [bind]. exists arr'. split; [reflexivity|]. split; [congruence|].
    intros j Hj. destruct (Nat.eq_dec j k) as [->|N].
    + apply nth_error_nth. exact V1.
    + rewrite <- V by lia. specialize (V2 (n - 1 - j)%nat ltac:(lia)).
      rewrite (nth_error_nth_lt arr' _ 0) in V2 by lia. rewrite (nth_error_nth_lt arr _ 0) in V2 by lia.
      congruence.
Qed.

(* successive groups of n words *)
Fixpoint groups (k n : nat) (l : list Z) : list (list Z) :=
  match k with O => [] | S k => firstn n l :: groups k n (skipn n l) end.
Lemma groups_seq : forall k n l, groups k n l = map (fun i => firstn n (skipn (i * n) l)) (seq 0 k).
Proof.
  induction k; intros n l; [reflexivity|]. cbn [groups]. rewrite IHk. cbn [seq map]. f_equal.
  rewrite <- seq_shift, map_map. apply map_ext. intros i. cbn [Nat.mul]. rewrite Nat.add_comm.
  f_equal. rewrite skipn_skipn'. f_equal. lia.
Qed.
Lemma witness_values_ok : forall n k src, (k * n <= length src)%nat ->
  witness_values n k src = Ok (map words_val (groups k n src)).
Proof.
  intros n k src H. unfold witness_values. rewrite groups_seq, map_map.
  apply mapM_ok. intros i Hi. apply in_seq in Hi. rewrite rev_fill by nia. cbn [bind].
  rewrite words_val_rev. reflexivity.
Qed.
