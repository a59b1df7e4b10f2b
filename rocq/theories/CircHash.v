(* Row hashing and Merkle paths in the circuits: what they bind and what they leave open. *)
From Verif Require Import Base ListAux NumTheory GlModel FrField HashModel HashProof BnModel CircModel CircProof.
From Coq Require Import Znumtheory.
Open Scope Z_scope.
Open Scope res_scope.

(** * Two values that are packed together are not bound *)

Lemma pow64_inv r : prime r -> 2 ^ 64 < r -> exists u, (2 ^ 64 * u) mod r = 1 mod r.
Proof.
  intros Hp Hr. assert (R : rel_prime (2 ^ 64) r).
  { apply rel_prime_sym, prime_rel_prime; [exact Hp|]. intros [q Hq].
    assert (0 < 2 ^ 64) by reflexivity. set (t := 2 ^ 64) in *. clearbody t.
    destruct (Z_le_gt_dec q 0); nia. }
  destruct (rel_prime_bezout _ _ R) as [u v H]. exists u.
  rewrite <- H. replace (2 ^ 64 * u) with (u * 2 ^ 64) by ring. rewrite Z_mod_plus_full. reflexivity.
Qed.

Lemma add_mod_l r a b : (a mod r + b) mod r = (a + b) mod r.
Proof. apply Zplus_mod_idemp_l. Qed.

Lemma pack2 r x y rest :
  fold_left (pack_step r) (x :: y :: rest) ([], 0, O)
  = fold_left (pack_step r) rest ([], (x + 2 ^ 64 * y) mod r, 2%nat).
Proof.
  cbn [fold_left]. f_equal. unfold pack_step. cbn [Nat.eqb].
  change (2 ^ (64 * Z.of_nat 0)) with 1. change (2 ^ (64 * Z.of_nat 1)) with (2 ^ 64).
  rewrite Z.add_0_l, Z.mul_1_l, add_mod_l. reflexivity.
Qed.

Lemma packed_free r x y rest t : prime r -> 2 ^ 64 < r ->
  exists y', felt r y' /\ packed r (t :: y' :: rest) = packed r (x :: y :: rest).
Proof.
  intros Hp Hr. destruct (pow64_inv r Hp Hr) as [u Hu].
  exists ((y + (x - t) * u) mod r). split; [apply Z.mod_pos_bound; destruct Hp; lia|].
  unfold packed. rewrite !pack2.
  replace ((t + 2 ^ 64 * ((y + (x - t) * u) mod r)) mod r) with ((x + 2 ^ 64 * y) mod r); [reflexivity|].
  set (w := y + (x - t) * u). change (eqr r (x + 2 ^ 64 * y) (t + 2 ^ 64 * (w mod r))).
  apply eqr_sym. apply (eqr_trans r _ (t + 2 ^ 64 * y + (x - t) * (2 ^ 64 * u))).
  - apply (eqr_trans r _ (t + 2 ^ 64 * w)); [|unfold w, eqr; f_equal; ring].
    apply eqr_add; [reflexivity|]. apply eqr_mul; [reflexivity|]. unfold eqr. apply Zmod_mod.
  - apply (eqr_trans r _ (t + 2 ^ 64 * y + (x - t) * 1)); [|unfold eqr; f_equal; ring].
    apply eqr_add; [reflexivity|]. apply eqr_mul; [reflexivity|exact Hu].
Qed.

Lemma linear_free r hash x y rest t : prime r -> 2 ^ 64 < r ->
  exists y', felt r y' /\ LinearHash r hash (t :: y' :: rest) = LinearHash r hash (x :: y :: rest).
Proof.
  intros Hp Hr. destruct (packed_free r x y rest t Hp Hr) as [y' [F E]]. exists y'. split; [exact F|].
  unfold LinearHash. rewrite E. reflexivity.
Qed.

(** * Words are bound *)

Definition word (x : Z) : Prop := 0 <= x < 2 ^ 64.

(* three words from one element *)
Lemma packed_snoc3 r x y z rest acc : packed r rest = packed r rest -> 
  fold_left (pack_step r) (x :: y :: z :: rest) (acc, 0, O)
  = fold_left (pack_step r) rest (acc ++ [(x + 2 ^ 64 * y + 2 ^ 128 * z) mod r], 0, O).
Proof.
  intros _. cbn [fold_left]. f_equal. unfold pack_step. cbn [Nat.eqb].
  change (2 ^ (64 * Z.of_nat 0)) with 1. change (2 ^ (64 * Z.of_nat 1)) with (2 ^ 64).
  change (2 ^ (64 * Z.of_nat 2)) with (2 ^ 128).
  rewrite Z.add_0_l, Z.mul_1_l, add_mod_l, <- Z.add_assoc, add_mod_l, Z.add_assoc. reflexivity.
Qed.

Definition pack_from (r : Z) (ins : list Z) (s : list Z * Z * nat) : list Z :=
  let '(vals, ac, n) := fold_left (pack_step r) ins s in if (0 <? n)%nat then vals ++ [ac] else vals.

Lemma pack_from_acc r : forall ins acc ac n, pack_from r ins (acc, ac, n) = acc ++ pack_from r ins ([], ac, n).
Proof.
  induction ins as [|x ins IH]; intros acc ac n; unfold pack_from; cbn [fold_left].
  - destruct (0 <? n)%nat; [reflexivity|rewrite app_nil_r; reflexivity].
  - unfold pack_step at 2 4. destruct (S n =? 3)%nat.
    + fold (pack_from r ins (acc ++ [(ac + 2 ^ (64 * Z.of_nat n) * x) mod r], 0, O)).
      fold (pack_from r ins ([] ++ [(ac + 2 ^ (64 * Z.of_nat n) * x) mod r], 0, O)).
      rewrite IH, (IH ([] ++ _)), app_assoc. reflexivity.
    + fold (pack_from r ins (acc, (ac + 2 ^ (64 * Z.of_nat n) * x) mod r, S n)).
      fold (pack_from r ins ([], (ac + 2 ^ (64 * Z.of_nat n) * x) mod r, S n)). apply IH.
Qed.

Lemma packed_3 r x y z rest : packed r (x :: y :: z :: rest)
  = (x + 2 ^ 64 * y + 2 ^ 128 * z) mod r :: packed r rest.
Proof.
  unfold packed. rewrite packed_snoc3 by reflexivity. cbn [app].
  fold (pack_from r rest ([(x + 2 ^ 64 * y + 2 ^ 128 * z) mod r], 0, O)).
  rewrite pack_from_acc. reflexivity.
Qed.
Lemma packed_2 r x y : packed r [x; y] = [(x + 2 ^ 64 * y) mod r].
Proof. unfold packed. rewrite pack2. reflexivity. Qed.
Lemma packed_1 r x : packed r [x] = [x mod r].
Proof.
  unfold packed. cbn [fold_left]. unfold pack_step. cbn [Nat.eqb]. change (2 ^ (64 * Z.of_nat 0)) with 1.
  rewrite Z.add_0_l, Z.mul_1_l. reflexivity.
Qed.

Lemma list3_ind {A} (Q : list A -> Prop) : Q [] -> (forall x, Q [x]) -> (forall x y, Q [x; y]) ->
  (forall x y z l, Q l -> Q (x :: y :: z :: l)) -> forall l, Q l.
Proof.
  intros H0 H1 H2 H3. fix IH 1. intros [|x [|y [|z l]]]; [exact H0|apply H1|apply H2|apply H3; apply IH].
Qed.

Lemma pack3_inj r x y z x' y' z' : 2 ^ 192 <= r -> word x -> word y -> word z -> word x' -> word y' -> word z' ->
  (x + 2 ^ 64 * y + 2 ^ 128 * z) mod r = (x' + 2 ^ 64 * y' + 2 ^ 128 * z') mod r -> x = x' /\ y = y' /\ z = z'.
Proof.
  unfold word. change (2 ^ 192) with 6277101735386680763835789423207666416102355444464034512896.
  change (2 ^ 64) with 18446744073709551616. change (2 ^ 128) with 340282366920938463463374607431768211456.
  intros Hr Hx Hy Hz Hx' Hy' Hz' E. rewrite !Z.mod_small in E by lia. lia.
Qed.

Lemma packed_inj r : 2 ^ 192 <= r -> forall ins ins', length ins = length ins' -> Forall word ins -> Forall word ins' ->
  packed r ins = packed r ins' -> ins = ins'.
Proof.
  intros Hr. assert (W0 : word 0) by (unfold word; lia).
  apply (list3_ind (fun ins => forall ins', length ins = length ins' -> Forall word ins -> Forall word ins' ->
    packed r ins = packed r ins' -> ins = ins')).
  - intros [|? ?] L; [reflexivity|discriminate].
  - intros x [|x' [|? ?]] L B B' E; try discriminate. rewrite !packed_1 in E. injection E as E.
    apply Forall_inv in B, B'. destruct (pack3_inj r x 0 0 x' 0 0 Hr) as [-> _]; try assumption; [|reflexivity].
    rewrite !Z.mul_0_r, !Z.add_0_r. exact E.
  - intros x y [|x' [|y' [|? ?]]] L B B' E; try discriminate. rewrite !packed_2 in E. injection E as E.
    pose proof (Forall_inv B). pose proof (Forall_inv B'). apply Forall_inv_tail in B, B'. apply Forall_inv in B, B'.
    destruct (pack3_inj r x y 0 x' y' 0 Hr) as [-> [-> _]]; try assumption; [|reflexivity].
    rewrite !Z.mul_0_r, !Z.add_0_r. exact E.
  - intros x y z l IH [|x' [|y' [|z' l']]] L B B' E; try discriminate. rewrite !packed_3 in E.
    injection E as E E2.
    pose proof (Forall_inv B). pose proof (Forall_inv B'). apply Forall_inv_tail in B, B'.
    pose proof (Forall_inv B). pose proof (Forall_inv B'). apply Forall_inv_tail in B, B'.
    pose proof (Forall_inv B). pose proof (Forall_inv B'). apply Forall_inv_tail in B, B'.
    destruct (pack3_inj r x y z x' y' z' Hr) as [-> [-> ->]]; try assumption.
    f_equal. f_equal. f_equal. apply IH; [cbn [length] in L; lia|exact B|exact B'|exact E2].
Qed.

Lemma packed_len r : forall ins ins', length ins = length ins' -> length (packed r ins) = length (packed r ins').
Proof.
  apply (list3_ind (fun ins => forall ins', length ins = length ins' -> length (packed r ins) = length (packed r ins'))).
  - intros [|? ?] L; [reflexivity|discriminate].
  - intros x [|x' [|? ?]] L; try discriminate. rewrite !packed_1. reflexivity.
  - intros x y [|x' [|y' [|? ?]]] L; try discriminate. rewrite !packed_2. reflexivity.
  - intros x y z l IH [|x' [|y' [|z' l']]] L; try discriminate. rewrite !packed_3. cbn [length] in *.
    f_equal. apply IH. lia.
Qed.

(* two different arguments of the hash function with the same value *)
Definition collision (hash : list Z -> Z -> Z) : Prop :=
  exists b st b' st', (b, st) <> (b', st') /\ hash b st = hash b' st'.

Lemma zlist_eq_dec (a b : list Z) : {a = b} + {a <> b}.
Proof. apply list_eq_dec. apply Z.eq_dec. Qed.

Lemma fold_bind hash : forall bs bs' st st', length bs = length bs' ->
  fold_left (fun st b => hash b st) bs st = fold_left (fun st b => hash b st) bs' st' ->
  (bs = bs' /\ st = st') \/ collision hash.
Proof.
  induction bs as [|b bs IH]; intros [|b' bs'] st st' L E; try discriminate; [left; split; [reflexivity|exact E]|].
  cbn [fold_left] in E. cbn [length] in L. destruct (IH bs' _ _ ltac:(lia) E) as [[-> Eh]|C]; [|right; exact C].
  destruct (zlist_eq_dec b b') as [->|Nb]; [destruct (Z.eq_dec st st') as [->|Ns]|].
  - left. split; reflexivity.
  - right. exists b', st, b', st'. split; [intros Q; apply Ns; injection Q; auto|exact Eh].
  - right. exists b, st, b', st'. split; [intros Q; apply Nb; injection Q; auto|exact Eh].
Qed.

Lemma blocks16_chunks : forall f (l : list Z), blocks16 f l = chunks_f f 16 l.
Proof. induction f; intros [|x l]; cbn [blocks16 chunks_f]; try reflexivity. rewrite IHf. reflexivity. Qed.

Lemma blocks_len : forall f (l l' : list Z), length l = length l' -> length (blocks16 f l) = length (blocks16 f l').
Proof.
  induction f; intros [|x l] [|x' l'] L; try discriminate; try reflexivity. cbn [blocks16 length]. f_equal.
  apply IHf. rewrite !skipn_length, L. reflexivity.
Qed.

Lemma linear_bind r hash ins ins' h : 2 ^ 192 <= r -> length ins = length ins' ->
  Forall word ins -> Forall word ins' ->
  LinearHash r hash ins = Some h -> LinearHash r hash ins' = Some h -> ins = ins' \/ collision hash.
Proof.
  intros Hr L B B' E E'. pose proof (packed_len r ins ins' L) as Lp.
  unfold LinearHash in E, E'. destruct (packed r ins) as [|v vs] eqn:Pk; [discriminate|].
  destruct (packed r ins') as [|v' vs'] eqn:Pk'; [discriminate|].
  assert (D : (v :: vs = v' :: vs') -> ins = ins').
  { intros Q. apply (packed_inj r Hr ins ins' L B B'). rewrite Pk, Pk'. exact Q. }
  destruct vs as [|w vs], vs' as [|w' vs']; try discriminate.
  - left. apply D. congruence.
  - set (l := v :: w :: vs) in *. set (l' := v' :: w' :: vs') in *. rewrite <- Lp in E'.
    assert (EE : fold_left (fun st b => hash b st) (blocks16 (length l) l) 0
               = fold_left (fun st b => hash b st) (blocks16 (length l) l') 0) by congruence.
    destruct (fold_bind hash _ _ _ _ (blocks_len _ _ _ Lp) EE) as [[Q _]|C]; [|right; exact C].
    left. apply D. rewrite !blocks16_chunks in Q. rewrite Lp in Q at 2.
    rewrite <- (concat_chunks 16 l), <- (concat_chunks 16 l') by discriminate. unfold chunks. rewrite Q. reflexivity.
Qed.

(** * The path *)

Definition digit (key : list Z) : nat :=
  Z.to_nat (nth 0 key 0 + 2 * nth 1 key 0 + 4 * nth 2 key 0 + 8 * nth 3 key 0).

Lemma selectors_spec a b c d : bit01 a -> bit01 b -> bit01 c -> bit01 d ->
  selectors a b c d = map (fun j => if (j =? Z.to_nat (d + 2 * c + 4 * b + 8 * a))%nat then 1 else 0) (seq 0 16).
Proof. intros [-> | ->] [-> | ->] [-> | ->] [-> | ->]; reflexivity. Qed.

Lemma nth_bit key i : Forall bit01 key -> bit01 (nth i key 0).
Proof.
  intros H. destruct (Nat.lt_ge_cases i (length key)) as [Hi|Hi].
  - rewrite Forall_forall in H. apply H. apply nth_In. exact Hi.
  - rewrite nth_overflow by exact Hi. left. reflexivity.
Qed.

Lemma combine_map_l {A B C} (f : A -> B) : forall (l : list A) (m : list C),
  combine (map f l) m = map (fun x => (f (fst x), snd x)) (combine l m).
Proof. induction l as [|a l IH]; intros [|b m]; cbn; try reflexivity. rewrite IH. reflexivity. Qed.

Lemma nth_combine_seq (s : list Z) : forall k j d, (j < length s)%nat ->
  nth j (combine (seq k (length s)) s) d = ((k + j)%nat, nth j s 0).
Proof.
  induction s as [|x s IH]; intros k j d H; [cbn in H; lia|]. cbn [length seq combine].
  destruct j as [|j]; cbn [nth]; [rewrite Nat.add_0_r; reflexivity|]. cbn [length] in H.
  rewrite IH by lia. f_equal. lia.
Qed.

(* the inputs of the hash are the siblings with the value at the place the key says *)
Lemma level_spec r key value sibs j : Forall bit01 key -> length sibs = 16%nat -> (j < 16)%nat ->
  nth j (level_inputs r key value sibs) 0 = (if (j =? digit key)%nat then value else nth j sibs 0) mod r.
Proof.
  intros B L Hj. unfold level_inputs.
  rewrite selectors_spec by (apply nth_bit; exact B). fold (digit key).
  rewrite combine_map_l, map_map. cbn [fst snd]. rewrite <- L.
  set (g := fun x : nat * Z => _). 
  rewrite (nth_indep _ 0 (g (O, 0))) by (rewrite map_length, combine_length, seq_length, L; lia).
  rewrite (map_nth g), nth_combine_seq by (rewrite L; exact Hj). unfold g. cbn [fst snd Nat.add].
  destruct (j =? digit key)%nat; f_equal; ring.
Qed.

Lemma digit_lt key : Forall bit01 key -> (digit key < 16)%nat.
Proof.
  intros B. unfold digit. destruct (nth_bit key 0 B), (nth_bit key 1 B), (nth_bit key 2 B), (nth_bit key 3 B); lia.
Qed.

Lemma merkle_bind r hash : (forall b st, felt r (hash b st)) ->
  forall sibs sibs' key v v', Forall bit01 key -> length sibs = length sibs' ->
  Forall (fun s => length s = 16%nat) sibs -> Forall (fun s => length s = 16%nat) sibs' ->
  Merkle r hash key v sibs = Merkle r hash key v' sibs' -> eqr r v v' \/ collision hash.
Proof.
  intros Hf. induction sibs as [|s sibs IH]; intros [|s' sibs'] key v v' B L S S' E; try discriminate.
  - left. cbn [Merkle] in E. rewrite E. reflexivity.
  - cbn [Merkle] in E. cbn [length] in L.
    assert (Bk : Forall bit01 (skipn 4 key)).
    { clear -B. do 4 (destruct key as [|? key]; [constructor|apply Forall_inv_tail in B]). exact B. }
    set (a := level_inputs r key v s) in *. set (b := level_inputs r key v' s') in *.
    destruct (IH sibs' _ _ _ Bk ltac:(lia) (Forall_inv_tail S) (Forall_inv_tail S') E) as [EQ|C]; [|right; exact C].
    apply (eqr_felt r) in EQ; [|apply Hf|apply Hf].
    destruct (zlist_eq_dec a b) as [Q|N].
    + left. apply Forall_inv in S, S'. pose proof (digit_lt key B) as D.
      pose proof (level_spec r key v s (digit key) B S D) as H1.
      pose proof (level_spec r key v' s' (digit key) B S' D) as H2. fold a in H1. fold b in H2.
      rewrite Nat.eqb_refl in H1, H2. unfold eqr. rewrite <- H1, <- H2, Q. reflexivity.
    + right. exists a, 0, b, 0. split; [intros X; apply N; injection X; auto|exact EQ].
Qed.

Lemma linear_felt r hash ins h : 0 < r -> (forall b st, felt r (hash b st)) -> LinearHash r hash ins = Some h -> felt r h.
Proof.
  intros Hr Hf. revert h. 
  assert (P1 : Forall (felt r) (packed r ins)).
  { revert ins. apply (list3_ind (fun ins => Forall (felt r) (packed r ins))).
    - constructor.
    - intros x. rewrite packed_1. constructor; [apply Z.mod_pos_bound; exact Hr|constructor].
    - intros x y. rewrite packed_2. constructor; [apply Z.mod_pos_bound; exact Hr|constructor].
    - intros x y z l IH. rewrite packed_3. constructor; [apply Z.mod_pos_bound; exact Hr|exact IH]. }
  unfold LinearHash. destruct (packed r ins) as [|v [|w vs]]; intros h E; [discriminate| |].
  - injection E as <-. apply Forall_inv in P1. exact P1.
  - injection E as <-. set (l := v :: w :: vs). assert (L : blocks16 (length l) l <> []) by discriminate.
    destruct (exists_last L) as [bs [b Eb]]. change (felt r (fold_left (fun st b => hash b st) (blocks16 (length l) l) 0)).
    rewrite Eb, fold_left_app. cbn [fold_left]. apply Hf.
Qed.

Lemma merklehash_bind r hash key ins ins' sibs sibs' root : 2 ^ 192 <= r -> (forall b st, felt r (hash b st)) ->
  Forall bit01 key -> length ins = length ins' -> Forall word ins -> Forall word ins' ->
  length sibs = length sibs' ->
  Forall (fun s => length s = 16%nat) sibs -> Forall (fun s => length s = 16%nat) sibs' ->
  MerkleHash r hash key ins sibs = Some root -> MerkleHash r hash key ins' sibs' = Some root ->
  ins = ins' \/ collision hash.
Proof.
  intros Hr Hf B L W W' Ls S S' E E'. unfold MerkleHash in E, E'.
  destruct (LinearHash r hash ins) as [h|] eqn:H1; [|discriminate].
  destruct (LinearHash r hash ins') as [h'|] eqn:H2; [|discriminate].
  assert (Hr0 : 0 < r) by (change (2 ^ 192) with 6277101735386680763835789423207666416102355444464034512896 in Hr; lia).
  destruct (merkle_bind r hash Hf sibs sibs' key h h' B Ls S S') as [Q|C]; [congruence| |right; exact C].
  apply (eqr_felt r) in Q; [|exact (linear_felt _ _ _ _ Hr0 Hf H1)|exact (linear_felt _ _ _ _ Hr0 Hf H2)].
  subst h'. exact (linear_bind r hash ins ins' h Hr L W W' H1 H2).
Qed.

(** * The same hash as the Rust code's *)


Section Same.
Variables q rinv : Z.
Hypothesis Hinv : (R256 * rinv) mod q = 1 mod q.

Lemma qv_repr v : eqr q (v * R256 mod q * rinv) v.
Proof.
  apply (eqr_trans q _ (v * (R256 * rinv))).
  - unfold eqr. rewrite Zmult_mod_idemp_l. f_equal. ring.
  - apply (eqr_trans q _ (v * 1)); [|unfold eqr; f_equal; ring]. apply eqr_mul; [reflexivity|exact Hinv].
Qed.

Lemma qv_add a b : q_value q rinv (q_add q a b) = (q_value q rinv a + q_value q rinv b) mod q.
Proof.
  unfold q_value, q_add. rewrite Zmult_mod_idemp_l, <- Zplus_mod. f_equal. ring.
Qed.

Lemma qv_mul a c : q_value q rinv (q_mul q rinv a (c * R256 mod q)) = (q_value q rinv a * c) mod q.
Proof.
  unfold q_value, q_mul. rewrite Zmult_mod_idemp_l, Zmult_mod_idemp_l.
  change (eqr q (a * (c * R256 mod q) * rinv * rinv) (a * rinv * c)).
  apply (eqr_trans q _ (a * rinv * (c * R256 mod q * rinv))); [unfold eqr; f_equal; ring|].
  apply eqr_mul; [reflexivity|apply qv_repr].
Qed.

Definition vals_of (s : list Z * Z * nat) : list Z * Z * nat :=
  let '(v, a, n) := s in (map (q_value q rinv) v, q_value q rinv a, n).

Lemma qv_0 : q_value q rinv 0 = 0.
Proof. unfold q_value. rewrite Z.mul_0_l. apply Zmod_0_l. Qed.

Lemma pow_0 : 2 ^ (64 * Z.of_nat 0) = 1. Proof. reflexivity. Qed.
Lemma pow_1 : 2 ^ (64 * Z.of_nat 1) = 2 ^ 64. Proof. reflexivity. Qed.
Lemma pow_2 : 2 ^ (64 * Z.of_nat 2) = 2 ^ 128. Proof. reflexivity. Qed.

Lemma step_same v a n e s' : (n < 3)%nat -> acc_step q rinv (v, a, n) e = Ok s' ->
  pack_step q (vals_of (v, a, n)) (fint e) = vals_of s' /\ (snd s' < 3)%nat.
Proof.
  intros Hn H. unfold acc_step in H. unfold q_from_repr in H. destruct (fint e <? q); [|discriminate].
  cbn [bind] in H. set (x := fint e) in *. clearbody x. set (xr := x * R256 mod q) in H.
  set (y := match n with 1%nat => _ | 2%nat => _ | _ => _ end) in H.
  assert (Y : eqr q (q_value q rinv y) (2 ^ (64 * Z.of_nat n) * x)).
  { assert (X : eqr q (q_value q rinv xr) x) by (unfold q_value, eqr; rewrite Zmod_mod; apply qv_repr).
    unfold y. destruct n as [|[|[|n]]]; [| | |lia].
    - rewrite pow_0. rewrite Z.mul_1_l. exact X.
    - rewrite pow_1. unfold OFFSET_2_64. rewrite qv_mul. unfold eqr at 1. rewrite Zmod_mod.
      change (eqr q (q_value q rinv xr * 2 ^ 64) (2 ^ 64 * x)). rewrite Z.mul_comm. apply eqr_mul; [reflexivity|exact X].
    - rewrite pow_2. unfold OFFSET_2_128. rewrite qv_mul. unfold eqr at 1. rewrite Zmod_mod.
      change (eqr q (q_value q rinv xr * 2 ^ 128) (2 ^ 128 * x)). rewrite Z.mul_comm. apply eqr_mul; [reflexivity|exact X]. }
  clearbody y.
  assert (A : q_value q rinv (q_add q a y) = (q_value q rinv a + 2 ^ (64 * Z.of_nat n) * x) mod q).
  { rewrite qv_add. change (eqr q (q_value q rinv a + q_value q rinv y) (q_value q rinv a + 2 ^ (64 * Z.of_nat n) * x)).
    apply eqr_add; [reflexivity|exact Y]. }
  unfold pack_step, vals_of. rewrite <- A. destruct (S n =? 3)%nat eqn:E3; injection H as <-.
  - split; [|cbn; lia]. rewrite map_app, qv_0. reflexivity.
  - split; [reflexivity|]. cbn [snd]. apply Nat.eqb_neq in E3. lia.
Qed.

Lemma fold_same : forall col s s', (snd s < 3)%nat -> foldM (acc_step q rinv) col s = Ok s' ->
  fold_left (pack_step q) (map fint col) (vals_of s) = vals_of s'.
Proof.
  induction col as [|e col IH]; intros s s' Hn H; cbn [foldM] in H.
  - injection H as <-. reflexivity.
  - destruct (acc_step q rinv s e) as [s1| | |] eqn:E; cbn [bind] in H; try discriminate.
    destruct s as [[v a] n]. destruct (step_same v a n e s1 Hn E) as [E1 Hn1].
    cbn [map fold_left]. rewrite E1. apply IH; [exact Hn1|exact H].
Qed.

Variable hash_ex : list Z -> Z -> nat -> res (list Z).
Variable hash : list Z -> Z -> Z.
(* the circuit's Poseidon is the Rust one on the values of the elements *)
Hypothesis Hhash : forall b st h, hash_q hash_ex b st = Ok h ->
  hash (map (q_value q rinv) b) (q_value q rinv st) = q_value q rinv h.

Lemma blocks_map : forall f (l : list Z), chunks_f f 16 (map (q_value q rinv) l) = map (map (q_value q rinv)) (chunks_f f 16 l).
Proof.
  induction f; intros l; destruct l as [|x l]; try reflexivity.
  change (firstn 16 (map (q_value q rinv) (x :: l)) :: chunks_f f 16 (skipn 16 (map (q_value q rinv) (x :: l)))
    = map (q_value q rinv) (firstn 16 (x :: l)) :: map (map (q_value q rinv)) (chunks_f f 16 (skipn 16 (x :: l)))).
  rewrite firstn_map, skipn_map, IHf. reflexivity.
Qed.

Lemma hash_fold : forall bs st h, foldM (fun st b => hash_q hash_ex b st) bs st = Ok h ->
  fold_left (fun st b => hash b st) (map (map (q_value q rinv)) bs) (q_value q rinv st) = q_value q rinv h.
Proof.
  induction bs as [|b bs IH]; intros st h H; cbn [foldM] in H.
  - injection H as <-. reflexivity.
  - destruct (hash_q hash_ex b st) as [s1| | |] eqn:E; cbn [bind] in H; try discriminate.
    cbn [map fold_left]. rewrite (Hhash _ _ _ E). apply IH. exact H.
Qed.

Lemma packed_vals col v a n : foldM (acc_step q rinv) col ([], 0, O) = Ok (v, a, n) ->
  packed q (map fint col) = map (q_value q rinv) (if (0 <? n)%nat then v ++ [a] else v).
Proof.
  intros H. apply fold_same in H; [|cbn; lia]. unfold packed. unfold vals_of at 1 in H. rewrite qv_0 in H.
  cbn [map] in H. rewrite H. unfold vals_of. destruct (0 <? n)%nat; [rewrite map_app|]; reflexivity.
Qed.

Lemma linear_same col h : col <> [] -> hash_matrix1 q rinv hash_ex col = Ok h ->
  LinearHash q hash (map fint col) = Some (q_value q rinv h).
Proof.
  intros Hc H. unfold hash_matrix1 in H. destruct (foldM (acc_step q rinv) col ([], 0, O)) as [[[v a] n]| | |] eqn:E;
    cbn [bind] in H; try discriminate.
  pose proof (packed_vals col v a n E) as Pk. unfold LinearHash. rewrite Pk.
  set (w := if (0 <? n)%nat then v ++ [a] else v) in *. clearbody w.
  destruct w as [|x [|y w]].
  - exfalso. destruct col as [|c1 [|c2 [|c3 col]]]; [apply Hc; reflexivity| | |].
    + cbn [map] in Pk. rewrite packed_1 in Pk. discriminate.
    + cbn [map] in Pk. rewrite packed_2 in Pk. discriminate.
    + cbn [map] in Pk. rewrite packed_3 in Pk. discriminate.
  - injection H as <-. reflexivity.
  - unfold hash_blocks, chunks in H. apply hash_fold in H. rewrite qv_0 in H. rewrite <- H, <- blocks_map.
    cbn [map]. f_equal. f_equal. rewrite blocks16_chunks.
    change (q_value q rinv x :: q_value q rinv y :: map (q_value q rinv) w) with (map (q_value q rinv) (x :: y :: w)).
    rewrite map_length. reflexivity.
Qed.
End Same.

(** * A carry between neighbours *)

Lemma packed_carry r x y rest a : packed r (x + 2 ^ 64 * a :: y - a :: rest) = packed r (x :: y :: rest).
Proof.
  unfold packed. rewrite !pack2. replace (x + 2 ^ 64 * a + 2 ^ 64 * (y - a)) with (x + 2 ^ 64 * y) by ring. reflexivity.
Qed.

Lemma path_carry r hash key x y rest sibs a :
  MerkleHash r hash key (x + 2 ^ 64 * a :: y - a :: rest) sibs = MerkleHash r hash key (x :: y :: rest) sibs.
Proof. unfold MerkleHash, LinearHash. rewrite packed_carry. reflexivity. Qed.

(* sixteen times 2^64 stays within what the arithmetic accepts, and is another element each time *)
Lemma carry_fed x y a : 0 <= x < gl_p -> 0 <= y < gl_p -> 0 < a <= 15 ->
  fed (x + 2 ^ 64 * a) /\ fed (y - a) /\ fof (x + 2 ^ 64 * a) <> fof x /\ fof (y - a) <> fof y.
Proof.
  intros Hx Hy Ha. unfold fed. change (2 ^ 68) with 295147905179352825856. change (2 ^ 64) with 18446744073709551616.
  split; [unfold gl_p in *; lia|]. split; [unfold gl_p in *; lia|].
  assert (G : forall u v k, 0 < v - u - k * gl_p < gl_p -> fof u <> fof v).
  { intros u v k H E. apply fof_eq_mod in E. assert (D : (v - u) mod gl_p = 0) by (rewrite Zminus_mod, E, Z.sub_diag; reflexivity).
    rewrite <- (Z_mod_plus_full _ (- k)) in D. rewrite Z.mod_small in D; [lia|]. lia. }
  split; intros E.
  - symmetry in E. revert E. apply (G x (x + 18446744073709551616 * a) a). unfold gl_p. lia.
  - revert E. apply (G (y - a) y 0). unfold gl_p. lia.
Qed.

Lemma path_free r hash key x y rest sibs t : prime r -> 2 ^ 64 < r ->
  exists y', felt r y' /\ MerkleHash r hash key (t :: y' :: rest) sibs = MerkleHash r hash key (x :: y :: rest) sibs.
Proof.
  intros Hp Hr. destruct (linear_free r hash x y rest t Hp Hr) as [y' [F E]]. exists y'. split; [exact F|].
  unfold MerkleHash. rewrite E. reflexivity.
Qed.
