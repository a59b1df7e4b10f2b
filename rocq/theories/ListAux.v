(* Facts about the panicking vector operations of Base. *)
From Verif Require Import Base.

Lemma vget_app {A} (l r : list A) x : vget (l ++ x :: r) (length l) = Ok x.
Proof. unfold vget. rewrite nth_error_app2 by lia. rewrite Nat.sub_diag. reflexivity. Qed.

Lemma vset_app {A} (l r : list A) x y : vset (l ++ x :: r) (length l) y = Ok (l ++ y :: r).
Proof.
  unfold vset. assert (E : vset_aux (l ++ x :: r) (length l) y = Some (l ++ y :: r)).
  { induction l as [|a l IH]; cbn; [reflexivity|]. rewrite IH. reflexivity. }
  rewrite E. reflexivity.
Qed.

Lemma vget_app' {A} (l r : list A) x i : i = length l -> vget (l ++ x :: r) i = Ok x.
Proof. intros ->. apply vget_app. Qed.
Lemma vset_app' {A} (l r : list A) x y i : i = length l -> vset (l ++ x :: r) i y = Ok (l ++ y :: r).
Proof. intros ->. apply vset_app. Qed.

Lemma nth_split_at {A} (l : list A) i x : nth_error l i = Some x ->
  exists l1 l2, l = l1 ++ x :: l2 /\ length l1 = i.
Proof. intros H. destruct (nth_error_split l i H) as [l1 [l2 [-> E]]]. eauto. Qed.

Lemma vget_ok {A} (l : list A) i : (i < length l)%nat -> exists x, vget l i = Ok x /\ nth_error l i = Some x.
Proof.
  intros H. unfold vget. destruct (nth_error l i) eqn:E; [eauto|].
  apply nth_error_None in E. lia.
Qed.

Lemma vset_ok {A} (l : list A) i y : (i < length l)%nat ->
  exists l', vset l i y = Ok l' /\ length l' = length l /\
    nth_error l' i = Some y /\ forall j, j <> i -> nth_error l' j = nth_error l j.
Proof.
  intros H. destruct (nth_error l i) as [x|] eqn:E; [|apply nth_error_None in E; lia].
  destruct (nth_split_at _ _ _ E) as [l1 [l2 [-> <-]]].
  exists (l1 ++ y :: l2). rewrite vset_app. split; [reflexivity|].
  split; [rewrite !app_length; reflexivity|].
  split; [rewrite nth_error_app2, Nat.sub_diag by lia; reflexivity|].
  intros j Hj. destruct (Nat.lt_ge_cases j (length l1)).
  - rewrite !nth_error_app1 by lia. reflexivity.
  - rewrite !nth_error_app2 by lia. destruct (j - length l1)%nat eqn:D; [lia|reflexivity].
Qed.

Lemma vset_oob {A} (l : list A) i y : (length l <= i)%nat -> vset l i y = Panic.
Proof.
  intros H. unfold vset. assert (E : vset_aux l i y = None).
  { revert i H. induction l as [|a l IH]; intros [|i] H; cbn in *; try reflexivity; [lia|].
    rewrite IH by lia. reflexivity. }
  rewrite E. reflexivity.
Qed.

Lemma vget_oob {A} (l : list A) i : (length l <= i)%nat -> vget l i = Panic.
Proof. intros H. unfold vget. apply nth_error_None in H. rewrite H. reflexivity. Qed.

Lemma nth_error_ext {A} (l r : list A) : (forall i, nth_error l i = nth_error r i) -> l = r.
Proof.
  revert r. induction l as [|a l IH]; intros [|b r] H; [reflexivity| | |].
  - specialize (H 0%nat). discriminate.
  - specialize (H 0%nat). discriminate.
  - pose proof (H 0%nat) as H0. cbn in H0. injection H0 as ->. f_equal. apply IH.
    intros i. apply (H (S i)).
Qed.

Lemma nth_error_ext_len {A} (l r : list A) : length l = length r ->
  (forall i, (i < length l)%nat -> nth_error l i = nth_error r i) -> l = r.
Proof.
  intros HL H. apply nth_error_ext. intros i. destruct (Nat.lt_ge_cases i (length l)); [auto|].
  transitivity (@None A); [|symmetry]; apply nth_error_None; lia.
Qed.

Lemma bind_ok {A B} (r : res A) (f : A -> res B) b : bind r f = Ok b -> exists a, r = Ok a /\ f a = Ok b.
Proof. destruct r; cbn; try discriminate. eauto. Qed.

Lemma vget_map {A B} (f : A -> B) l i : vget (map f l) i = rmap f (vget l i).
Proof. unfold vget. rewrite nth_error_map. destruct (nth_error l i); reflexivity. Qed.

Lemma vset_map {A B} (f : A -> B) l i x : vset (map f l) i (f x) = rmap (map f) (vset l i x).
Proof.
  unfold vset. assert (E : vset_aux (map f l) i (f x) = option_map (map f) (vset_aux l i x)).
  { revert i. induction l as [|a l IH]; intros [|i]; cbn; try reflexivity.
    rewrite IH. destruct (vset_aux l i x); reflexivity. }
  rewrite E. destruct (vset_aux l i x); reflexivity.
Qed.

Lemma vget_inv {A} (l : list A) i x : vget l i = Ok x -> nth_error l i = Some x.
Proof. unfold vget. destruct (nth_error l i); congruence. Qed.

Lemma length_0_nil {A} (l : list A) : length l = 0%nat -> l = [].
Proof. destruct l; [reflexivity|discriminate]. Qed.

Lemma skipn_skipn' {A} a b (l : list A) : skipn a (skipn b l) = skipn (b + a) l.
Proof.
  revert l. induction b; intros l; cbn [Nat.add skipn]; [reflexivity|].
  destruct l; [destruct a; reflexivity|]. apply IHb.
Qed.

Lemma mapM_ok {A B} (f : A -> res B) (g : A -> B) l : (forall x, In x l -> f x = Ok (g x)) -> mapM f l = Ok (map g l).
Proof.
  induction l as [|a l IH]; intros H; cbn [mapM map]; [reflexivity|].
  rewrite (H a (or_introl eq_refl)). cbn [bind]. rewrite IH; [reflexivity|]. intros x Hx. apply H. right. exact Hx.
Qed.
Lemma nth_concat {A} m (l : list (list A)) : forall i j, Forall (fun r => length r = m) l -> (j < m)%nat ->
  nth_error (concat l) (i * m + j) = match nth_error l i with Some r => nth_error r j | None => None end.
Proof.
  induction l as [|r l IH]; intros i j H Hj.
  - cbn [concat]. destruct i; destruct (_ + _)%nat; reflexivity.
  - inversion H as [|? ? Hr H']; subst. cbn [concat]. destruct i as [|i].
    + cbn [nth_error Nat.mul Nat.add]. apply nth_error_app1. exact Hj.
    + cbn [nth_error]. rewrite <- (IH i j H' Hj). rewrite nth_error_app2 by (cbn [Nat.mul]; lia).
      f_equal. cbn [Nat.mul]. lia.
Qed.
Lemma length_concat {A} m (l : list (list A)) : Forall (fun r => length r = m) l -> length (concat l) = (length l * m)%nat.
Proof. induction l as [|r l IH]; intros H; [reflexivity|]. inversion H; subst. cbn. rewrite app_length, IH by assumption. reflexivity. Qed.
Lemma foldM_app {A B} (f : B -> A -> res B) l1 l2 b : foldM f (l1 ++ l2) b = bind (foldM f l1 b) (foldM f l2).
Proof. revert b. induction l1 as [|x l1 IH]; intros b; cbn [app foldM bind]; [reflexivity|]. destruct (f b x); cbn [bind]; auto. Qed.
Lemma vget_some {A} (l : list A) i x : nth_error l i = Some x -> vget l i = Ok x.
Proof. unfold vget. intros ->. reflexivity. Qed.
Lemma nth_error_nth_lt {A} (l : list A) i d : (i < length l)%nat -> nth_error l i = Some (nth i l d).
Proof. revert i. induction l; intros [|i] H; cbn in *; try lia; [reflexivity|]. apply IHl. lia. Qed.

Lemma nth_firstn_lt {A} (l : list A) d : forall k i, (i < k)%nat -> nth i (firstn k l) d = nth i l d.
Proof.
  induction l as [|x l IH]; intros [|k] [|i] H; cbn; try lia; auto. apply IH. lia.
Qed.

Lemma nth_skipn' {A} (l : list A) d : forall k i, nth i (skipn k l) d = nth (k + i) l d.
Proof. induction l as [|x l IH]; intros [|k] i; cbn; auto. destruct i; reflexivity. Qed.
