(* The equations of PosOpt evaluated over the integers hold modulo q. *)
From Verif Require Import Base ListAux HashModel AvxModel PosModel PosRing PosOpt ZqField.
Open Scope nat_scope.

Section Hom.
Variable A : Type.
Variables (zero : A) (add mul sub : A -> A -> A) (red : A -> A).
Variable B : Type.
Variables (zero' : B) (add' mul' sub' : B -> B -> B) (red' : B -> B).
Variable f : A -> B.
Hypothesis f0 : f zero = zero'.
Hypothesis fadd : forall x y, f (add x y) = add' (f x) (f y).
Hypothesis fmul : forall x y, f (mul x y) = mul' (f x) (f y).
Hypothesis fsub : forall x y, f (sub x y) = sub' (f x) (f y).
Hypothesis fred : forall x, f (red x) = red' (f x).
Notation F := (map f).
Notation FF := (map (map f)).

Lemma hom_map2 (g : A -> A -> A) (g' : B -> B -> B) : (forall x y, f (g x y) = g' (f x) (f y)) -> forall u v, map2 g' (F u) (F v) = F (map2 g u v).
Proof. intros H. induction u as [|a u IH]; intros [|b v]; try reflexivity. cbn [map map2]. rewrite H, IH. reflexivity. Qed.
Lemma hom_dot u : forall v, dot B zero' add' mul' (F u) (F v) = f (dot A zero add mul u v).
Proof.
  unfold dot. intros v. rewrite (hom_map2 mul mul' fmul). generalize (map2 mul u v). intros l. induction l as [|a l IH]; [symmetry; exact f0|].
  cbn [map fold_right]. rewrite IH, fadd. reflexivity.
Qed.
Lemma hom_mix M u : p_mix B zero' add' mul' (FF M) (F u) = F (p_mix A zero add mul M u).
Proof. unfold p_mix. rewrite !map_map. apply map_ext. intros r. apply hom_dot. Qed.
Lemma hom_vadd u v : vadd B add' (F u) (F v) = F (vadd A add u v). Proof. apply hom_map2. exact fadd. Qed.
Lemma hom_vsub u v : vsub B sub' (F u) (F v) = F (vsub A sub u v). Proof. apply hom_map2. exact fsub. Qed.
Lemma hom_vscale a u : vscale B mul' (f a) (F u) = F (vscale A mul a u).
Proof. unfold vscale. rewrite !map_map. apply map_ext. intros x. symmetry. apply fmul. Qed.
Lemma hom_zeros n : zeros B zero' n = F (zeros A zero n).
Proof. unfold zeros. induction n as [|n IH]; [reflexivity|]. cbn [repeat map]. rewrite IH, f0. reflexivity. Qed.
Lemma hom_rowmul n r M : rowmul B zero' add' mul' n (F r) (FF M) = F (rowmul A zero add mul n r M).
Proof.
  unfold rowmul. revert M. induction r as [|a r IH]; intros [|m M]; cbn [map map2 fold_right]; try apply hom_zeros.
  rewrite IH, hom_vscale, hom_vadd. reflexivity.
Qed.
Lemma hom_redv v : redv B red' (F v) = F (redv A red v).
Proof. unfold redv. rewrite !map_map. apply map_ext. intros x. symmetry. apply fred. Qed.
Lemma hom_mmul n X Y : mmul B zero' add' mul' red' n (FF X) (FF Y) = FF (mmul A zero add mul red n X Y).
Proof. unfold mmul. rewrite !map_map. apply map_ext. intros r. rewrite hom_rowmul. apply hom_redv. Qed.
Lemma hom_mpow n M p : mpow B zero' add' mul' red' n (FF M) p = FF (mpow A zero add mul red n M p).
Proof. induction p as [p IH|p IH|]; cbn [mpow]; rewrite ?IH, ?hom_mmul; reflexivity. Qed.
Lemma hom_hd0 v : hd0 B zero' (F v) = f (hd0 A zero v).
Proof. destruct v; [symmetry; exact f0|reflexivity]. Qed.
Lemma hom_hds M : map (hd0 B zero') (FF M) = F (map (hd0 A zero) M).
Proof. rewrite !map_map. apply map_ext. intros r. apply hom_hd0. Qed.
Lemma hom_tl {X Y} (g : X -> Y) l : tl (map g l) = map g (tl l). Proof. destruct l; reflexivity. Qed.
Lemma hom_tls M : map (fun r : list B => tl r) (FF M) = FF (map (fun r : list A => tl r) M).
Proof. rewrite !map_map. apply map_ext. intros r. apply hom_tl. Qed.
Lemma hom_hd M : hd [] (FF M) = F (hd [] M). Proof. destruct M; reflexivity. Qed.
Lemma hom_blk t c off : blk B t (F c) off = F (blk A t c off).
Proof. unfold blk. rewrite skipn_map, firstn_map. reflexivity. Qed.
Lemma hom_nth i l : nth i (F l) zero' = f (nth i l zero). Proof. rewrite <- f0. apply map_nth. Qed.
Lemma hom_cols t M : cols B zero' t (FF M) = FF (cols A zero t M).
Proof. unfold cols. rewrite !map_map. apply map_ext. intros i. rewrite !map_map. apply map_ext. intros r. apply hom_nth. Qed.

Definition f2 (p : list A * list A) : list B * list B := (F (fst p), F (snd p)).
Lemma hom_combine X Y : combine (FF X) (FF Y) = map f2 (combine X Y).
Proof. revert Y. induction X as [|x X IH]; intros [|y Y]; try reflexivity. cbn [map combine]. rewrite IH. reflexivity. Qed.

Variables (h np t : nat) (c : list A) (m : list (list A)).
Variables (C S : list A) (Mo P : list (list A)).

Lemma hom_mrow : m_row B (FF m) = F (m_row A m). Proof. unfold m_row. rewrite hom_hd. apply hom_tl. Qed.
Lemma hom_mcol : m_col B zero' (FF m) = F (m_col A zero m). Proof. unfold m_col. rewrite hom_tl. apply hom_hds. Qed.
Lemma hom_mhat : m_hat B (FF m) = FF (m_hat A m). Proof. unfold m_hat. rewrite hom_tl. apply hom_tls. Qed.
Lemma hom_sfirst k : s_first B t (F S) k = F (s_first A t S k). Proof. apply hom_blk. Qed.
Lemma hom_scol k : s_col B t (F S) k = F (s_col A t S k). Proof. apply hom_blk. Qed.
Lemma hom_srow k : s_row B np t (FF m) (F S) k = F (s_row A np t m S k).
Proof. unfold s_row. rewrite hom_mrow, hom_sfirst, hom_tl. destruct (k =? np); reflexivity. Qed.
Lemma hom_vstep k v : v_step B zero' add' mul' sub' red' h t (F c) (FF m) (F C) k (F v) = F (v_step A zero add mul sub red h t c m C k v).
Proof. unfold v_step, d_k. rewrite hom_mix, hom_blk, hom_vadd, hom_nth, hom_hds, hom_vscale, hom_vsub, hom_redv. reflexivity. Qed.
Lemma hom_vrun n : forall k v, v_run B zero' add' mul' sub' red' h t (F c) (FF m) (F C) n k (F v)
  = map f2 (v_run A zero add mul sub red h t c m C n k v).
Proof.
  induction n as [|n IH]; intros k v; cbn [v_run map].
  - rewrite hom_zeros. reflexivity.
  - rewrite hom_vstep, IH, hom_hd0, <- f0. reflexivity.
Qed.
Lemma hom_obligations : obligations B zero' add' mul' sub' red' h np t (F c) (FF m) (F C) (F S) (FF Mo) (FF P)
  = map f2 (obligations A zero add mul sub red h np t c m C S Mo P).
Proof.
  unfold obligations. rewrite !map_app. repeat refine (f_equal2 (@app _) _ _).
  - unfold ob_full. cbn [map]. rewrite !map_app, !map_map. rewrite !hom_blk.
    refine (f_equal2 cons eq_refl (f_equal2 (@app _) _ _)); apply map_ext; intros r; rewrite !hom_blk, hom_mix; reflexivity.
  - unfold ob_m. rewrite hom_cols. apply hom_combine.
  - unfold ob_s. rewrite !map_app, !map_map. cbn [map]. repeat refine (f_equal2 (@app _) _ _).
    + apply map_ext. intros k. rewrite hom_sfirst, hom_hd, !hom_hd0. reflexivity.
    + apply map_ext. intros k. rewrite !hom_srow, hom_mhat, hom_rowmul. reflexivity.
    + apply map_ext. intros k. rewrite !hom_scol, hom_mhat, hom_mix. reflexivity.
    + rewrite hom_scol, hom_mcol. reflexivity.
  - unfold ob_p. cbv zeta. cbn [map]. rewrite hom_cols, !hom_hd, !hom_tl, hom_hds, hom_tls, hom_mhat, hom_scol, hom_mix, hom_mpow, hom_combine. reflexivity.
  - unfold v_0. rewrite !hom_blk, hom_mix, hom_vsub, hom_redv. apply hom_vrun.
Qed.
End Hom.

Definition sqr (t : nat) (M : list (list Z)) : bool := (length M =? t) && forallb (fun r => length r =? t) M.
Definition zlens (h np t : nat) (c : list Z) (m : list (list Z)) (C S : list Z) (Mo P : list (list Z)) : bool :=
  ((h + 1) * t + np + (h - 1) * t <=? length C) && ((t * 2 - 1) * np <=? length S) && ((h + np + h) * t <=? length c)
  && sqr t m && sqr t Mo && sqr t P.
Lemma sqr_ok q t M : sqr t M = true -> square_m (Zq q) t (map (map (zq_of q)) M).
Proof.
  unfold sqr, square_m. intros H. apply andb_prop in H. destruct H as [L F]. apply Nat.eqb_eq in L. rewrite map_length. split; [exact L|].
  rewrite forallb_forall in F. apply Forall_forall. intros x X. apply in_map_iff in X. destruct X as (r & <- & R). rewrite map_length. apply Nat.eqb_eq, F, R.
Qed.

(* with the lengths and the equations the optimised permutation is the textbook one, for any function as S-box *)
Theorem checked q h np n c m C S Mo P (sb : Zq q -> Zq q) : 1 <= h -> 1 <= np ->
  zlens h np (1 + n) c m C S Mo P = true ->
  let F := map (zq_of q) in let FF := map F in
  Forall (fun p => fst p = snd p) (obligations (Zq q) (zq_of q 0) q_add q_mul q_sub (fun x => x) h np (1 + n) (F c) (FF m) (F C) (F S) (FF Mo) (FF P)) ->
  forall st, length st = 1 + n ->
  permute_opt (Zq q) (zq_of q 0) q_add q_mul sb (2 * h) np (F C) (F S) (FF Mo) (FF P) st
  = permute_ref (Zq q) (zq_of q 0) q_add q_mul sb (2 * h) np (F c) (FF m) st /\
  exists r, permute_ref (Zq q) (zq_of q 0) q_add q_mul sb (2 * h) np (F c) (FF m) st = Ok r /\ length r = 1 + n.
Proof.
  intros H1 N1 ZL F FF ZC st L. unfold zlens in ZL. rewrite !andb_true_iff in ZL. destruct ZL as (((((A & B) & D) & E) & G) & H).
  apply Nat.leb_le in A. apply Nat.leb_le in B. apply Nat.leb_le in D.
  apply (opt_is_ref (Zq q) (zq_of q 0) (zq_of q 1) q_add q_mul q_sub q_neg (Zq_ring q) sb h np n);
    try assumption; unfold F, FF; rewrite ?map_length; try assumption; try (apply sqr_ok; assumption).
Qed.
