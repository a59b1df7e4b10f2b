(* The decimation in time recursion on functions and the order of the rows between the rounds. *)
From Coq Require Import Ring ArithRing Lia.
From Verif Require Import Base GlModel FrField F3gModel Cubic F3gProof ListAux PolyModel Roots PolyProof FftProof FftTop FriMath.
Open Scope nat_scope.
Add Ring Kr : K_ring.

Fixpoint pev (l : nat) (f : nat -> K) (X : K) : K :=
  match l with
  | O => f 0
  | S m => kadd (pev m f (kmul X X)) (kmul X (pev m (fun r => f (pow2 m + r)) (kmul X X)))
  end.
Lemma pev_ext l : forall f g X, (forall r, r < pow2 l -> f r = g r) -> pev l f X = pev l g X.
Proof.
  induction l; intros f g X H; cbn [pev]; [apply H; cbn; lia|]. rewrite pow2_S in H.
  rewrite (IHl f g) by (intros; apply H; lia).
  rewrite (IHl (fun r => f (pow2 l + r)) (fun r => g (pow2 l + r))) by (intros; apply H; lia). reflexivity.
Qed.
Lemma pev_zero l : forall f X, (forall r, r < pow2 l -> f r = kzero) -> pev l f X = kzero.
Proof.
  induction l; intros f X H; cbn [pev]; [apply H; cbn; lia|]. rewrite pow2_S in H.
  rewrite (IHl f) by (intros; apply H; lia). rewrite (IHl (fun r => f (pow2 l + r))) by (intros; apply H; lia). ring.
Qed.
Lemma pev_scale l c : forall f X, pev l (fun r => kmul (f r) c) X = kmul (pev l f X) c.
Proof. induction l; intros f X; cbn [pev]; [reflexivity|]. rewrite IHl, (IHl (fun r => f (pow2 l + r))). ring. Qed.
Lemma kpow_sq X n : kpow (kmul X X) n = kpow X (n + n).
Proof. rewrite kpow_prod, kpow_add. reflexivity. Qed.
Lemma pev_comp i L : forall f X, pev (i + L) f X = pev L (fun r => pev i (fun q => f (r * pow2 i + q)) (kpow X (pow2 L))) X.
Proof.
  induction L; intros f X.
  - rewrite Nat.add_0_r. cbn [pev]. change (pow2 0) with 1. cbn [kpow]. replace (kmul kone X) with X by ring.
    apply pev_ext. intros. reflexivity.
  - rewrite Nat.add_succ_r. cbn [pev]. rewrite !IHL, kpow_sq, <- pow2_S. refine (f_equal2 kadd eq_refl (f_equal2 kmul eq_refl _)). apply pev_ext. intros r Hr.
    apply pev_ext. intros q Hq. f_equal. rewrite Nat.pow_add_r. ring.
Qed.
Lemma pev_brp n : forall p X, length p = pow2 n -> pev n (fun r => nth r (brp n p) kzero) X = peval p X.
Proof.
  induction n; intros p X H.
  - cbn [pev brp]. destruct p as [|a [|b q]]; cbn [length] in H; try discriminate H. cbn [nth peval]. ring.
  - rewrite pow2_S in H. pose proof (evens_len p _ H) as HE. pose proof (odds_len p _ H) as HO. cbn [pev brp].
    rewrite peval_split. rewrite <- (IHn (evens p)), <- (IHn (odds p)) by assumption. refine (f_equal2 kadd _ (f_equal2 kmul eq_refl _)).
    + apply pev_ext. intros r Hr. apply app_nth1. rewrite brp_len by exact HE. exact Hr.
    + apply pev_ext. intros r Hr. rewrite app_nth2 by (rewrite brp_len by exact HE; lia). rewrite brp_len by exact HE. f_equal. lia.
Qed.

(** ** one round *)
Definition rowS (a : nat -> K) (i b : nat) : K := pev i (fun q => a (b / pow2 i * pow2 i + q)) (kpow (kroot i) (b mod pow2 i)).
Definition rot (n i b : nat) : nat := b mod pow2 i * pow2 (n - i) + b / pow2 i.
(* the rows after fft_block on blocks of 2^L rows of a memory [mem] *)
Definition blkY (n i start : nat) : nat := if i =? 0 then 0 else start / pow2 (n - i).
Definition passrow (n i L : nat) (mem : nat -> K) (R : nat) : K :=
  pev L (fun r => mem (R / pow2 L * pow2 L + r)) (kpow (kroot (i + L)) (blkY n i (R / pow2 L * pow2 L) + R mod pow2 L * pow2 i)).

Lemma div_eq a b q r : r < b -> a = q * b + r -> a / b = q.
Proof. intros H ->. rewrite Nat.div_add_l by lia. rewrite Nat.div_small by exact H. lia. Qed.
Lemma mod_eq a b q r : r < b -> a = q * b + r -> a mod b = r.
Proof. intros H ->. rewrite Nat.add_comm, Nat.mod_add by lia. apply Nat.mod_small. exact H. Qed.
Lemma rot_lt n i b : i <= n -> b < pow2 n -> rot n i b < pow2 n.
Proof.
  intros Hi Hb. unfold rot. pose proof (pow2_pos i). pose proof (pow2_pos (n - i)).
  pose proof (Nat.mod_upper_bound b (pow2 i) ltac:(lia)).
  assert (E : pow2 n = pow2 i * pow2 (n - i)) by (rewrite <- Nat.pow_add_r; f_equal; lia).
  assert (b / pow2 i < pow2 (n - i)) by (apply Nat.div_lt_upper_bound; lia). nia.
Qed.
Lemma rot_n n b : b < pow2 n -> rot n n b = b.
Proof. intros H. unfold rot. rewrite Nat.sub_diag. change (pow2 0) with 1. rewrite Nat.mod_small, Nat.div_small by exact H. lia. Qed.

Lemma round_step n i L a mem mem' : 1 <= L -> i + L <= n -> n <= 32 ->
  (forall b, b < pow2 n -> mem (rot n i b) = rowS a i b) ->
  (forall I J, I < pow2 L -> J < pow2 (n - L) -> mem' (I * pow2 (n - L) + J) = passrow n i L mem (J * pow2 L + I)) ->
  forall b, b < pow2 n -> mem' (rot n (i + L) b) = rowS a (i + L) b.
Proof.
  intros HL Hn Hn32 Hm Hm' b Hb.
  set (H := b / pow2 (i + L)). set (lo := b mod pow2 (i + L)). set (I := lo / pow2 i). set (Y := lo mod pow2 i).
  pose proof (pow2_pos i) as Pi. pose proof (pow2_pos L) as PL. pose proof (pow2_pos (i + L)) as PiL. pose proof (pow2_pos (n - i - L)) as Pr.
  assert (EiL : pow2 (i + L) = pow2 i * pow2 L) by apply Nat.pow_add_r.
  assert (EnL : pow2 (n - L) = pow2 i * pow2 (n - i - L)) by (rewrite <- Nat.pow_add_r; f_equal; lia).
  assert (Eni : pow2 (n - i) = pow2 L * pow2 (n - i - L)) by (rewrite <- Nat.pow_add_r; f_equal; lia).
  assert (En : pow2 n = pow2 i * pow2 L * pow2 (n - i - L)) by (rewrite <- !Nat.pow_add_r; f_equal; lia).
  assert (Eb : b = H * pow2 (i + L) + lo) by (unfold H, lo; rewrite Nat.mul_comm; apply Nat.div_mod; lia).
  assert (Hlo : lo < pow2 (i + L)) by (apply Nat.mod_upper_bound; lia).
  assert (Elo : lo = I * pow2 i + Y) by (unfold I, Y; rewrite Nat.mul_comm; apply Nat.div_mod; lia).
  assert (HY : Y < pow2 i) by (apply Nat.mod_upper_bound; lia).
  assert (HI : I < pow2 L) by (apply Nat.div_lt_upper_bound; lia).
  assert (HH : H < pow2 (n - i - L)) by (apply Nat.div_lt_upper_bound; [lia|]; rewrite EiL; lia).
  set (J := Y * pow2 (n - i - L) + H).
  assert (HJ : J < pow2 (n - L)) by (unfold J; rewrite EnL; nia).
  assert (Er : rot n (i + L) b = I * pow2 (n - L) + J).
  { unfold rot. fold lo. fold H. replace (n - (i + L)) with (n - i - L) by lia. rewrite Elo at 1. unfold J. rewrite EnL. ring. }
  rewrite Er, Hm' by assumption. unfold passrow.
  assert (ED : (J * pow2 L + I) / pow2 L = J) by (apply (div_eq _ _ _ I HI); reflexivity).
  assert (EM : (J * pow2 L + I) mod pow2 L = I) by (apply (mod_eq _ _ J I HI); reflexivity).
  rewrite ED, EM.
  assert (EY : blkY n i (J * pow2 L) = Y).
  { unfold blkY. destruct (Nat.eqb_spec i 0) as [->|Ni].
    - change (pow2 0) with 1 in HY. lia.
    - apply (div_eq _ _ _ (H * pow2 L)); [rewrite Eni; nia|]. unfold J. rewrite Eni. ring. }
  rewrite EY. unfold rowS. fold H. fold lo. replace (Y + I * pow2 i) with lo by lia. set (w := kpow (kroot (i + L)) lo).
  assert (Ew : kpow w (pow2 L) = kpow (kroot i) Y).
  { unfold w. rewrite <- kpow_mul, Nat.mul_comm, kpow_mul, kroot_down by lia.
    replace (i + L - L) with i by lia. rewrite Elo. replace (I * pow2 i + Y) with (Y + pow2 i * I) by lia. apply kroot_period. lia. }
  rewrite (pev_comp i L _ w), Ew. apply pev_ext. intros r Hr.
  set (b' := (H * pow2 L + r) * pow2 i + Y).
  assert (Hb' : b' < pow2 n) by (unfold b'; rewrite En; nia).
  assert (E1 : b' / pow2 i = H * pow2 L + r) by (apply (div_eq _ _ _ Y HY); reflexivity).
  assert (E2 : b' mod pow2 i = Y) by (apply (mod_eq _ _ (H * pow2 L + r) Y HY); reflexivity).
  assert (E3 : J * pow2 L + r = rot n i b').
  { unfold rot. rewrite E1, E2, Eni. unfold J. ring. }
  rewrite E3, Hm by exact Hb'. unfold rowS. rewrite E1, E2. apply pev_ext. intros q Hq. f_equal. rewrite EiL. ring.
Qed.
Lemma round_one n a mem R : n <= 32 -> R < pow2 n -> (forall b, b < pow2 n -> mem b = a b) -> passrow n 0 n mem R = rowS a n R.
Proof.
  intros Hn HR Hm. unfold passrow, rowS, blkY. cbn [Nat.eqb]. rewrite Nat.div_small, Nat.mod_small by exact HR. change (pow2 0) with 1.
  replace (0 + R * 1) with R by lia. cbn [Nat.add Nat.mul]. apply pev_ext. intros r Hr. apply Hm. exact Hr.
Qed.
Lemma rot_0 n b : rot n 0 b = b.
Proof. unfold rot. change (pow2 0) with 1. rewrite Nat.mod_1_r, Nat.div_1_r. reflexivity. Qed.
Lemma rowS_0 a b : rowS a 0 b = a b.
Proof. unfold rowS. change (pow2 0) with 1. rewrite Nat.mod_1_r, Nat.div_1_r. cbn [pev]. f_equal. lia. Qed.
Lemma rowS_brp n p b : length p = pow2 n -> b < pow2 n -> rowS (fun r => nth r (brp n p) kzero) n b = peval p (kpow (kroot n) b).
Proof.
  intros Hp Hb. unfold rowS. rewrite Nat.div_small, Nat.mod_small by exact Hb. rewrite <- (pev_brp n) by exact Hp.
  apply pev_ext. intros r Hr. reflexivity.
Qed.

(** ** reading the vector backwards *)
Lemma ksum_rev n : forall f, ksum n f = ksum n (fun i => f (n - 1 - i)).
Proof.
  induction n; intros f; [reflexivity|]. rewrite (ksum_shift n (fun i => f (S n - 1 - i))). cbn [ksum]. rewrite (IHn f).
  replace (S n - 1 - 0) with n by lia. rewrite (ksum_ext n (fun i => f (S n - 1 - S i)) (fun i => f (n - 1 - i))) by (intros; f_equal; lia). ring.
Qed.
Definition back (e : list K) : list K := map (fun j => nth ((length e - j) mod length e) e kzero) (seq 0 (length e)).
Lemma back_len e : length (back e) = length e.
Proof. unfold back. rewrite map_length, seq_length. reflexivity. Qed.
Lemma back_eval n e b : n <= 32 -> length e = pow2 n -> b < pow2 n ->
  peval (back e) (kpow (kroot n) b) = peval e (kpow (kroot n) (pow2 n - b)).
Proof.
  intros Hn He Hb. unfold back. rewrite peval_map_seq, peval_sum, He. pose proof (pow2_pos n) as Pn. pose proof (kroot_full n Hn) as F.
  destruct (pow2 n) as [|m] eqn:E; [lia|]. rewrite !ksum_shift. refine (f_equal2 kadd _ _).
  { cbn [kpow]. rewrite Nat.sub_0_r, Nat.mod_same by lia. reflexivity. }
  rewrite ksum_rev. apply ksum_ext. intros i Hi. rewrite Nat.mod_small by lia.
  replace (S m - S (m - 1 - i)) with (S i) by lia. refine (f_equal2 kmul eq_refl _). rewrite <- !kpow_mul.
  assert (Per : forall x y z, x = y + S m * z -> kpow (kroot n) x = kpow (kroot n) y).
  { intros x y z ->. rewrite kpow_add, (kpow_mul _ (S m) z), F, kpow_1. ring. }
  destruct (Nat.le_gt_cases (S i) b) as [L|L].
  - apply (Per _ _ (b - S i)). replace (S (m - 1 - i)) with ((b - S i) + (S m - b)) by lia.
    remember (b - S i) as d. remember (S m - b) as c. replace b with (S i + d) by lia. replace (S m) with (S i + d + c) by lia. ring.
  - symmetry. apply (Per _ _ (S i - b)). replace (S (m - 1 - i)) with (S m - S i) by lia.
    remember (S i - b) as d. remember (S m - S i) as c. replace (S m - b) with (d + c) by lia. replace (S i) with (b + d) by lia.
    replace (S m) with (b + d + c) by lia. ring.
Qed.
Lemma idft_back n e b : n <= 32 -> length e = pow2 n -> b < pow2 n ->
  nth b (idft n e) kzero = kmul (peval (back e) (kpow (kroot n) b)) (ninv n).
Proof. intros Hn He Hb. unfold idft. rewrite nth_map_seq by exact Hb. rewrite back_eval by assumption. reflexivity. Qed.
