(* The optimised Poseidon permutation against the textbook one, over any commutative ring.
   [obligations] lists the equations between the two sets of constants that make them equal. The
   functions below take the ring operations as arguments, so that the equations can be evaluated over
   the integers and read in the field. *)
From Verif Require Import Base ListAux HashModel AvxModel PosModel PosRing.
From Coq Require Import Ring.
Open Scope nat_scope.

Section Gen.
Variable A : Type.
Variables (zero : A) (add mul sub : A -> A -> A).
Variable red : A -> A.

Notation dot := (dot A zero add mul).
Notation p_mix := (p_mix A zero add mul).
Notation cols := (cols A zero).

Definition vadd (u v : list A) : list A := map2 add u v.
Definition vsub (u v : list A) : list A := map2 sub u v.
Definition vscale (a : A) (u : list A) : list A := map (mul a) u.
Definition zeros (n : nat) : list A := repeat zero n.
Definition rowmul (n : nat) (r : list A) (M : list (list A)) : list A := fold_right vadd (zeros n) (map2 vscale r M).
Definition redv (v : list A) : list A := map red v.
Definition mmul (n : nat) (X Y : list (list A)) : list (list A) := map (fun r => redv (rowmul n r Y)) X.
Fixpoint mpow (n : nat) (M : list (list A)) (p : positive) : list (list A) :=
  match p with
  | xH => M
  | xO p => let Q := mpow n M p in mmul n Q Q
  | xI p => let Q := mpow n M p in mmul n M (mmul n Q Q)
  end.

Definition hd0 (v : list A) : A := hd zero v.
Definition blk (t : nat) (c : list A) (off : nat) : list A := firstn t (skipn off c).

Section Cond.
Variables (h np t : nat) (c : list A) (m : list (list A)).
Variables (C S : list A) (Mo P : list (list A)).
Definition m_row : list A := tl (hd [] m).
Definition m_col : list A := map hd0 (tl m).
Definition m_hat : list (list A) := map (fun r => tl r) (tl m).
Definition s_first (k : nat) : list A := firstn t (skipn ((t * 2 - 1) * k) S).
Definition s_col (k : nat) : list A := firstn (t - 1) (skipn ((t * 2 - 1) * k + t) S).
Definition s_row (k : nat) : list A := if k =? np then m_row else tl (s_first k).
Definition d_k (k : nat) : A := nth ((h + 1) * t + k) C zero.
Definition v_step (k : nat) (v : list A) : list A :=
  redv (vsub (vadd (p_mix m v) (blk t c ((h + 1 + k) * t))) (vscale (d_k k) (map hd0 m))).
Fixpoint v_run (n k : nat) (v : list A) : list (list A * list A) :=
  match n with
  | O => [(v, zeros t)]
  | Datatypes.S n => ([hd0 v], [zero]) :: v_run n (k + 1) (v_step k v)
  end.
Definition v_0 : list A := redv (vsub (blk t c (h * t)) (p_mix m (blk t C (h * t)))).
Definition ob_full : list (list A * list A) :=
  (blk t C 0, blk t c 0)
  :: map (fun r => (p_mix m (blk t C (t + r * t)), blk t c ((r + 1) * t))) (seq 0 (h - 1))
  ++ map (fun r => (p_mix m (blk t C ((h + 1) * t + np + r * t)), blk t c ((h + np + r + 1) * t))) (seq 0 (h - 1)).
Definition ob_s : list (list A * list A) :=
  map (fun k => ([hd0 (s_first k)], [hd0 (hd [] m)])) (seq 0 np)
  ++ map (fun k => (rowmul (t - 1) (s_row k) m_hat, s_row (k + 1))) (seq 0 np)
  ++ map (fun k => (p_mix m_hat (s_col (k + 1)), s_col k)) (seq 0 (np - 1))
  ++ [(s_col (np - 1), m_col)].
Definition ob_m : list (list A * list A) := combine (cols t Mo) m.
Definition ob_p : list (list A * list A) :=
  let Pm := cols t P in
  (hd [] Pm, hd [] m) :: (map hd0 (tl Pm), p_mix m_hat (s_col 0))
  :: combine (map (fun r => tl r) (tl Pm)) (mpow (t - 1) m_hat (Pos.of_nat (np + 1))).
Definition obligations : list (list A * list A) := ob_full ++ ob_m ++ ob_s ++ ob_p ++ v_run np 0 v_0.
End Cond.
End Gen.

Section R.
Variable A : Type.
Variables (zero one : A) (add mul sub : A -> A -> A) (opp : A -> A).
Hypothesis RT : ring_theory zero one add mul sub opp eq.
Variable sbox1 : A -> A.
Add Ring AR : RT.

Notation dot := (dot A zero add mul).
Notation p_mix := (p_mix A zero add mul).
Notation cols := (cols A zero).
Notation vadd := (vadd A add).
Notation vsub := (vsub A sub).
Notation vscale := (vscale A mul).
Notation zeros := (zeros A zero).
Notation rowmul := (rowmul A zero add mul).
Notation idr := (fun x : A => x).
Notation mmul := (mmul A zero add mul idr).
Notation mpow := (mpow A zero add mul idr).
Notation hd0 := (hd0 A zero).
Notation p_add := (p_add A add).
Notation blk := (blk A).

Lemma dot_nil_l u : dot [] u = zero. Proof. reflexivity. Qed.
Lemma dot_nil_r u : dot u [] = zero. Proof. destruct u; reflexivity. Qed.
Lemma dot_cons a u b v : dot (a :: u) (b :: v) = add (mul a b) (dot u v). Proof. reflexivity. Qed.
Lemma dot_add_r r : forall u v, length u = length v -> dot r (vadd u v) = add (dot r u) (dot r v).
Proof.
  induction r as [|a r IH]; intros u v L; [rewrite !dot_nil_l; ring|].
  destruct u as [|x u], v as [|y v]; try discriminate L; [cbn [PosOpt.vadd map2]; rewrite !dot_nil_r; ring|].
  change (vadd (x :: u) (y :: v)) with (add x y :: vadd u v). rewrite !dot_cons, IH by (injection L; auto). ring.
Qed.
Lemma dot_add_l u : forall v r, length u = length v -> dot (vadd u v) r = add (dot u r) (dot v r).
Proof.
  induction u as [|x u IH]; intros [|y v] r L; try discriminate L; [cbn [PosOpt.vadd map2]; rewrite !dot_nil_l; ring|].
  destruct r as [|a r]; [rewrite !dot_nil_r; ring|].
  change (vadd (x :: u) (y :: v)) with (add x y :: vadd u v). rewrite !dot_cons, IH by (injection L; auto). ring.
Qed.
Lemma dot_scale_r a r : forall u, dot r (vscale a u) = mul a (dot r u).
Proof.
  induction r as [|x r IH]; intros u; [rewrite !dot_nil_l; ring|]. destruct u as [|y u]; [cbn [PosOpt.vscale map]; rewrite !dot_nil_r; ring|].
  change (vscale a (y :: u)) with (mul a y :: vscale a u). rewrite !dot_cons, IH. ring.
Qed.
Lemma dot_scale_l a u : forall r, dot (vscale a u) r = mul a (dot u r).
Proof.
  induction u as [|x u IH]; intros r; [cbn [PosOpt.vscale map]; rewrite !dot_nil_l; ring|]. destruct r as [|y r]; [rewrite !dot_nil_r; ring|].
  change (vscale a (x :: u)) with (mul a x :: vscale a u). rewrite !dot_cons, IH. ring.
Qed.
Lemma dot_zeros n : forall u, dot (zeros n) u = zero.
Proof. induction n as [|n IH]; intros u; [reflexivity|]. destruct u as [|y u]; [reflexivity|]. change (zeros (S n)) with (zero :: zeros n). rewrite dot_cons, IH. ring. Qed.
Lemma dot_zeros_r u : forall n, dot u (zeros n) = zero.
Proof. induction u as [|y u IH]; intros [|n]; try reflexivity. change (zeros (S n)) with (zero :: zeros n). rewrite dot_cons, IH. ring. Qed.

Lemma vadd_len u v : length u = length v -> length (vadd u v) = length u.
Proof. intros L. unfold PosOpt.vadd. rewrite (PosRing.map2_length). lia. Qed.
Lemma vsub_len u v : length u = length v -> length (vsub u v) = length u.
Proof. intros L. unfold PosOpt.vsub. rewrite (PosRing.map2_length). lia. Qed.
Lemma vscale_len a u : length (vscale a u) = length u. Proof. apply map_length. Qed.
Lemma zeros_len n : length (zeros n) = n. Proof. apply repeat_length. Qed.
Lemma mix_len M u : length (p_mix M u) = length M. Proof. apply map_length. Qed.
Lemma mix_cons r M u : p_mix (r :: M) u = dot r u :: p_mix M u. Proof. reflexivity. Qed.

Lemma mix_add M u v : length u = length v -> p_mix M (vadd u v) = vadd (p_mix M u) (p_mix M v).
Proof. intros L. induction M as [|r M IH]; [reflexivity|]. rewrite !mix_cons, dot_add_r, IH by exact L. reflexivity. Qed.
Lemma mix_scale M a u : p_mix M (vscale a u) = vscale a (p_mix M u).
Proof. induction M as [|r M IH]; [reflexivity|]. rewrite !mix_cons, dot_scale_r, IH. reflexivity. Qed.

Lemma rowmul_len n M r : Forall (fun row => length row = n) M -> length (rowmul n r M) = n.
Proof.
  unfold PosOpt.rowmul. revert r. induction M as [|m M IH]; intros r F; [destruct r; cbn [map2 fold_right]; apply zeros_len|].
  destruct r as [|a r]; [apply zeros_len|]. cbn [map2 fold_right]. apply Forall_inv in F as X. apply Forall_inv_tail in F.
  rewrite vadd_len; rewrite vscale_len; [exact X|]. rewrite IH by exact F. exact X.
Qed.
Lemma dot_mix n M : Forall (fun row => length row = n) M -> forall r u, dot r (p_mix M u) = dot (rowmul n r M) u.
Proof.
  induction M as [|m M IH]; intros F r u; [destruct r; cbn [PosRing.p_mix map]; unfold PosOpt.rowmul; cbn [map2 fold_right]; rewrite dot_nil_r, dot_zeros; reflexivity|].
  destruct r as [|a r]; [unfold PosOpt.rowmul; cbn [map2 fold_right]; rewrite dot_nil_l, dot_zeros; reflexivity|].
  apply Forall_inv in F as X. apply Forall_inv_tail in F. rewrite mix_cons, dot_cons, (IH F).
  change (rowmul n (a :: r) (m :: M)) with (vadd (vscale a m) (rowmul n r M)).
  rewrite dot_add_l, dot_scale_l; [reflexivity|]. rewrite vscale_len, rowmul_len by exact F. exact X.
Qed.

Lemma mmul_eq n X Y : mmul n X Y = map (fun r => rowmul n r Y) X.
Proof. unfold PosOpt.mmul, PosOpt.redv. apply map_ext. intros r. apply map_id. Qed.
Lemma mmul_mix n X Y u : Forall (fun row => length row = n) Y -> p_mix (mmul n X Y) u = p_mix X (p_mix Y u).
Proof.
  intros F. rewrite mmul_eq. unfold PosRing.p_mix at 1 2. rewrite map_map. apply map_ext. intros r. symmetry. apply dot_mix. exact F.
Qed.
Lemma mmul_rows n X Y : Forall (fun row => length row = n) Y -> Forall (fun row => length row = n) (mmul n X Y).
Proof. intros F. rewrite mmul_eq. apply Forall_forall. intros x H. apply in_map_iff in H. destruct H as (r & <- & _). apply rowmul_len. exact F. Qed.
Lemma mpow_rows n M p : Forall (fun row => length row = n) M -> Forall (fun row => length row = n) (mpow n M p).
Proof. intros F. induction p as [p IH|p IH|]; cbn [PosOpt.mpow]; [repeat apply mmul_rows; exact IH|apply mmul_rows; exact IH|exact F]. Qed.

Lemma mpow_len n M p : length (mpow n M p) = length M.
Proof. induction p as [p IH|p IH|]; cbn [PosOpt.mpow]; rewrite ?mmul_eq, ?map_length; [reflexivity|exact IH|reflexivity]. Qed.

Definition it (M : list (list A)) (k : nat) (u : list A) : list A := Nat.iter k (p_mix M) u.
Lemma it_S M k u : it M (S k) u = p_mix M (it M k u). Proof. reflexivity. Qed.
Lemma it_add M a b u : it M (a + b) u = it M a (it M b u).
Proof. induction a as [|a IH]; [reflexivity|]. cbn [Nat.add]. rewrite !it_S, IH. reflexivity. Qed.
Lemma mpow_it n M : Forall (fun row => length row = n) M -> forall p u, p_mix (mpow n M p) u = it M (Pos.to_nat p) u.
Proof.
  intros F. induction p as [p IH|p IH|]; intros u; cbn [PosOpt.mpow].
  - rewrite (mmul_mix n M) by (apply mmul_rows, mpow_rows, F). rewrite mmul_mix by (apply mpow_rows, F). rewrite !IH, <- it_add, <- it_S. f_equal. lia.
  - rewrite mmul_mix by (apply mpow_rows, F). rewrite !IH, <- it_add. f_equal. lia.
  - reflexivity.
Qed.
Lemma it_len M n k u : length M = n -> length u = n -> length (it M k u) = n.
Proof. intros L U. destruct k as [|k]; [exact U|]. rewrite it_S, mix_len. exact L. Qed.
Lemma it_vadd M n k u v : length M = n -> length u = n -> length v = n -> it M k (vadd u v) = vadd (it M k u) (it M k v).
Proof.
  intros L U V. induction k as [|k IH]; [reflexivity|]. rewrite !it_S, IH, mix_add; [reflexivity|]. rewrite !(it_len M n) by assumption. reflexivity.
Qed.
Lemma it_scale M k a u : it M k (vscale a u) = vscale a (it M k u).
Proof. induction k as [|k IH]; [reflexivity|]. rewrite !it_S, IH, mix_scale. reflexivity. Qed.

(* a matrix split at its first row and column *)
Lemma mix_split_rows M : Forall (fun row => row <> []) M -> forall a u,
  p_mix M (a :: u) = vadd (vscale a (map hd0 M)) (p_mix (map (fun r => tl r) M) u).
Proof.
  induction M as [|r M IH]; intros F a u; [reflexivity|]. apply Forall_inv in F as X. apply Forall_inv_tail in F.
  rewrite mix_cons, (IH F). destruct r as [|b r]; [congruence|]. cbn [map]. rewrite mix_cons, dot_cons.
  change (hd0 (b :: r)) with b. cbn [tl]. unfold PosOpt.vscale, PosOpt.vadd. cbn [map map2]. f_equal. ring.
Qed.
Definition e_split (M : list (list A)) (a : A) (u : list A) : list A :=
  add (mul (hd0 (hd [] M)) a) (dot (m_row A M) u) :: vadd (vscale a (m_col A zero M)) (p_mix (m_hat A M) u).
Lemma mix_split M n a u : length M = S n -> Forall (fun row => length row = S n) M -> p_mix M (a :: u) = e_split M a u.
Proof.
  intros L F. destruct M as [|r M]; [discriminate L|]. apply Forall_inv in F as X. apply Forall_inv_tail in F.
  rewrite mix_cons. unfold e_split, m_row, m_col, m_hat. cbn [hd tl]. destruct r as [|b r]; [discriminate X|]. cbn [tl].
  rewrite dot_cons. change (hd0 (b :: r)) with b. f_equal. apply mix_split_rows.
  apply Forall_forall. intros x H. rewrite Forall_forall in F. specialize (F x H). intros ->. discriminate F.
Qed.

Lemma vadd_comm u : forall v, vadd u v = vadd v u.
Proof. unfold PosOpt.vadd. induction u as [|a u IH]; intros [|b v]; try reflexivity. cbn [map2]. rewrite IH. f_equal. ring. Qed.
Lemma vadd_nth u v i : length u = length v -> nth i (vadd u v) zero = add (nth i u zero) (nth i v zero).
Proof.
  revert v i; induction u as [|a u IH]; intros [|b v] [|i] L; try discriminate L; cbn [PosOpt.vadd PosOpt.vsub map2 nth]; try ring.
  apply IH. injection L; auto.
Qed.
Lemma vsub_nth u v i : length u = length v -> nth i (vsub u v) zero = sub (nth i u zero) (nth i v zero).
Proof.
  revert v i; induction u as [|a u IH]; intros [|b v] [|i] L; try discriminate L; cbn [PosOpt.vadd PosOpt.vsub map2 nth]; try ring.
  apply IH. injection L; auto.
Qed.
Lemma vscale_nth a u i : nth i (vscale a u) zero = mul a (nth i u zero).
Proof. revert i; induction u as [|b u IH]; intros [|i]; cbn [PosOpt.vscale map nth]; try ring. apply IH. Qed.
Lemma zeros_nth n i : nth i (zeros n) zero = zero. Proof. apply nth_repeat. Qed.
Lemma vext u v : length u = length v -> (forall i, nth i u zero = nth i v zero) -> u = v.
Proof. intros L H. apply (nth_ext _ _ zero zero L). intros i _. apply H. Qed.
Lemma mix_sub M u v : length u = length v -> p_mix M (vsub u v) = vsub (p_mix M u) (p_mix M v).
Proof.
  intros L. induction M as [|r M IH]; [reflexivity|]. rewrite !mix_cons, IH. unfold PosOpt.vsub at 3. cbn [map2]. f_equal.
  clear IH. revert u v L. induction r as [|a r IH]; intros u v L; [rewrite !dot_nil_l; ring|].
  destruct u as [|x u], v as [|y v]; try discriminate L; [cbn [PosOpt.vsub map2]; rewrite !dot_nil_r; ring|].
  change (vsub (x :: u) (y :: v)) with (sub x y :: vsub u v). rewrite !dot_cons, IH by (injection L; auto). ring.
Qed.

(** ** The permutations *)
Section Perm.
Variables (h np n : nat) (c : list A) (m : list (list A)).
Variables (C S : list A) (Mo P : list (list A)).
Notation t := (Datatypes.S n).
Hypothesis H1 : 1 <= h.
Hypothesis N1 : 1 <= np.
Hypothesis LC : (h + 1) * t + np + (h - 1) * t <= length C.
Hypothesis LS : (t * 2 - 1) * np <= length S.
Hypothesis Lc : (h + np + h) * t <= length c.
Hypothesis SQ : square_m A t m.
Hypothesis SQo : square_m A t Mo.
Hypothesis SQp : square_m A t P.
Hypothesis OB : Forall (fun p => fst p = snd p) (obligations A zero add mul sub idr h np t c m C S Mo P).

Notation mrow := (m_row A m).
Notation mcol := (m_col A zero m).
Notation mhat := (m_hat A m).
Notation scol := (s_col A t S).
Notation srow := (s_row A np t m S).
Notation m00 := (hd0 (hd [] m)).
Notation dk := (d_k A zero h t C).
Notation vstep := (v_step A zero add mul sub idr h t c m C).
Notation vrun := (v_run A zero add mul sub idr h t c m C).

Lemma ob_split : Forall (fun p => fst p = snd p) (ob_full A zero add mul h np t c m C) /\
  Forall (fun p => fst p = snd p) (ob_m A zero t m Mo) /\ Forall (fun p => fst p = snd p) (ob_s A zero add mul np t m S) /\
  Forall (fun p => fst p = snd p) (ob_p A zero add mul idr np t m S P) /\
  Forall (fun p => fst p = snd p) (vrun np 0 (v_0 A zero add mul sub idr h t c m C)).
Proof. unfold obligations in OB. rewrite !Forall_app in OB. tauto. Qed.

Lemma in_ob {X} (f : X -> list A * list A) l : Forall (fun p => fst p = snd p) (map f l) -> forall x, In x l -> fst (f x) = snd (f x).
Proof. intros F x I. rewrite Forall_forall in F. apply F. apply in_map. exact I. Qed.

Lemma cons_eq {X} (a b : X) (u v : list X) : a :: u = b :: v -> a = b /\ u = v. Proof. intros E. injection E. auto. Qed.
Lemma combine_eq {X} (a : list X) : forall b, length a = length b -> Forall (fun p => fst p = snd p) (combine a b) -> a = b.
Proof.
  induction a as [|x a IH]; intros [|y b] L F; try discriminate L; [reflexivity|]. cbn [combine] in F.
  apply Forall_inv in F as E. apply Forall_inv_tail in F. cbn [fst snd] in E. rewrite E, (IH b); [reflexivity|injection L; auto|exact F].
Qed.

Lemma cols_m : cols t Mo = m.
Proof. destruct ob_split as (_ & F & _). apply combine_eq; [|exact F]. rewrite cols_len. symmetry. apply SQ. Qed.

Lemma mhat_len : length mhat = n.
Proof. unfold m_hat. rewrite map_length. destruct SQ as [L _]. destruct m as [|r M]; [discriminate L|]. cbn in *. lia. Qed.
Lemma mhat_rows : Forall (fun row => length row = n) mhat.
Proof.
  unfold m_hat. apply Forall_forall. intros x X. apply in_map_iff in X. destruct X as (r & <- & R).
  destruct SQ as [_ F]. rewrite Forall_forall in F. assert (I : In r m) by (destruct m; [destruct R|right; exact R]).
  specialize (F r I). destruct r; [discriminate F|]. cbn in *. lia.
Qed.
Lemma mcol_len : length mcol = n.
Proof. unfold m_col. rewrite map_length. destruct SQ as [L _]. destruct m as [|r M]; [discriminate L|]. cbn in *. lia. Qed.
Lemma msplit a u : p_mix m (a :: u) = e_split m a u.
Proof. apply (mix_split m n). apply SQ. apply SQ. Qed.
Lemma hds : map hd0 m = m00 :: mcol.
Proof. destruct SQ as [L _]. unfold m_col. destruct m; [discriminate L|]. reflexivity. Qed.

Lemma width_le k : k < np -> (t * 2 - 1) * k + (t * 2 - 1) <= length S.
Proof.
  intros K. apply Nat.le_trans with ((t * 2 - 1) * np); [|exact LS]. clear - K. set (w := t * 2 - 1). clearbody w.
  rewrite <- (Nat.mul_1_r w) at 2. rewrite <- Nat.mul_add_distr_l. apply Nat.mul_le_mono_l. lia.
Qed.
Lemma s_first_len k : k < np -> length (s_first A t S k) = t.
Proof.
  intros K. unfold s_first. rewrite firstn_length, skipn_length. pose proof (width_le k K) as W. lia.
Qed.
Lemma scol_len k : k < np -> length (scol k) = n.
Proof.
  intros K. unfold s_col. rewrite firstn_length, skipn_length. pose proof (width_le k K) as W. lia.
Qed.

Lemma s_facts : (forall k, k < np -> s_first A t S k = m00 :: srow k) /\ (forall k, k < np -> rowmul n (srow k) mhat = srow (k + 1)) /\
  (forall k, k < np - 1 -> scol k = p_mix mhat (scol (k + 1))) /\ scol (np - 1) = mcol.
Proof.
  destruct ob_split as (_ & _ & F & _). unfold ob_s in F. rewrite !Forall_app in F. destruct F as (F1 & F2 & F3 & F4).
  split; [|split; [|split]].
  - intros k K. pose proof (in_ob _ _ F1 k ltac:(apply in_seq; lia)) as E. cbn [fst snd] in E. apply cons_eq in E. destruct E as [E _].
    pose proof (s_first_len k K) as L. unfold s_row. destruct (Nat.eqb_spec k np); [lia|]. destruct (s_first A t S k); [discriminate L|].
    cbn [hd tl] in *. unfold PosOpt.hd0 at 1 in E. cbn [hd] in E. rewrite E. reflexivity.
  - intros k K. pose proof (in_ob _ _ F2 k ltac:(apply in_seq; lia)) as E. cbn [fst snd] in E.
    replace (t - 1) with n in E by lia. exact E.
  - intros k K. pose proof (in_ob _ _ F3 k ltac:(apply in_seq; lia)) as E. symmetry. exact E.
  - apply Forall_inv in F4. exact F4.
Qed.

Lemma srow_it u : forall j k, k + j = np -> dot (srow k) (it mhat j u) = dot mrow u.
Proof.
  destruct s_facts as (_ & F & _). induction j as [|j IH]; intros k K.
  - replace k with np by lia. unfold s_row. rewrite Nat.eqb_refl. reflexivity.
  - rewrite it_S, (dot_mix n mhat mhat_rows), (F k) by lia. apply IH. lia.
Qed.
Lemma scol_it : forall j k, k + j + 1 = np -> scol k = it mhat j mcol.
Proof.
  destruct s_facts as (_ & _ & F & E). induction j as [|j IH]; intros k K.
  - replace k with (np - 1) by lia. exact E.
  - rewrite it_S, (F k) by lia. f_equal. apply IH. lia.
Qed.

(* textbook rounds after the addition of the first constants *)
Definition s0 (st : list A) : list A := match st with [] => [] | a :: r => sbox1 a :: r end.
Definition w_part (w : list A) (k : nat) : list A := vadd (p_mix m (s0 w)) (blk t c ((h + 1 + k) * t)).

Lemma blk_len off : off + t <= length c -> length (blk t c off) = t.
Proof. intros L. unfold PosOpt.blk. rewrite firstn_length, skipn_length. lia. Qed.

Lemma blk_i i : i < h + np + h -> length (blk t c (i * t)) = t.
Proof.
  intros I. apply blk_len. apply Nat.le_trans with ((h + np + h) * t); [|exact Lc]. clear - I.
  rewrite <- (Nat.mul_1_l t) at 2. rewrite <- Nat.mul_add_distr_r. apply Nat.mul_le_mono_r. lia.
Qed.

Lemma v_step_eq k v : length v = t -> vstep k v = vsub (vadd (p_mix m v) (blk t c ((h + 1 + k) * t))) (vscale (dk k) (m00 :: mcol)).
Proof. intros _. unfold v_step, redv. rewrite map_id, hds. reflexivity. Qed.

Lemma partial_rounds : forall j k v w0 w, k + j = np -> length v = n -> length w = n ->
  Forall (fun p => fst p = snd p) (vrun j k (zero :: v)) ->
  fold_left (p_partial A zero add mul sbox1 C S t ((h + 1) * t)) (seq k j) (w0 :: it mhat j (vsub w v))
  = fold_left w_part (seq k j) (w0 :: w).
Proof.
  destruct s_facts as (SF & _ & _ & _).
  assert (LM : length m = t) by apply SQ.
  induction j as [|j IH]; intros k v w0 w K LV LW OV.
  - cbn [v_run seq fold_left]. cbn [v_run] in OV. apply Forall_inv in OV. cbn [fst snd] in OV. change (zeros t) with (zero :: zeros n) in OV.
    apply cons_eq in OV. destruct OV as [_ ->]. cbn [seq fold_left]. f_equal. change (it mhat 0 (vsub w (zeros n))) with (vsub w (zeros n)).
    apply vext; [rewrite vsub_len; rewrite ?zeros_len; lia|]. intros i. rewrite vsub_nth by (rewrite zeros_len; lia). rewrite zeros_nth. ring.
  - cbn [v_run] in OV. apply Forall_inv_tail in OV. cbn [seq fold_left].
    set (a := add (sbox1 w0) (dk k)). set (cb := blk t c ((h + 1 + k) * t)).
    assert (LB : length cb = t) by (apply blk_i; lia). destruct cb as [|cb0 cbt] eqn:ECB; [discriminate LB|]. cbn [length] in LB.
    assert (E1 : p_partial A zero add mul sbox1 C S t ((h + 1) * t) (w0 :: it mhat (Datatypes.S j) (vsub w v)) k
      = add (mul m00 a) (dot mrow (vsub w v)) :: it mhat j (vadd (vscale a mcol) (p_mix mhat (vsub w v)))).
    { unfold p_partial. fold (d_k A zero h t C k). fold a. fold (s_first A t S k). rewrite (SF k) by lia. rewrite dot_cons, srow_it by lia. f_equal.
      fold (scol k). rewrite (scol_it j k) by lia.
      assert (LWV : length (vsub w v) = n) by (rewrite vsub_len; lia).
      rewrite (it_vadd mhat n) by (rewrite ?vscale_len, ?mix_len, ?mcol_len, ?mhat_len; reflexivity). rewrite it_scale, it_S.
      assert (ES : forall z, p_mix mhat (it mhat j z) = it mhat j (p_mix mhat z)).
      { intros z. rewrite <- it_S. change (p_mix mhat z) with (it mhat 1 z). rewrite <- it_add. f_equal. lia. }
      rewrite ES. set (X := it mhat j (p_mix mhat (vsub w v))). set (Y := it mhat j mcol).
      assert (LX : length X = n) by (apply it_len; [apply mhat_len|rewrite mix_len; apply mhat_len]).
      assert (LY : length Y = n) by (apply it_len; [apply mhat_len|apply mcol_len]). clearbody X Y. clearbody a. rewrite <- LX in LY. clear - LY RT.
      revert Y LY. induction X as [|x X IH]; intros [|y Y] L; try discriminate L; [reflexivity|].
      unfold PosOpt.vadd, PosOpt.vscale. cbn [map map2]. f_equal; [ring|]. apply IH. injection L; auto. }
    rewrite E1. 
    set (v' := vstep k (zero :: v)) in *.
    assert (EV : v' = sub (add (dot mrow v) cb0) (mul (dk k) m00) :: vsub (vadd (p_mix mhat v) cbt) (vscale (dk k) mcol)).
    { unfold v'. rewrite v_step_eq by (cbn [length]; lia). rewrite msplit. unfold e_split. fold cb. rewrite ECB.
      assert (Z : vadd (vscale zero mcol) (p_mix mhat v) = p_mix mhat v).
      { assert (L2 : length (p_mix mhat v) = n) by (rewrite mix_len; apply mhat_len). pose proof mcol_len as L3.
        set (Y := p_mix mhat v) in *. set (mc := mcol) in *. clearbody Y mc. clear - L2 L3 RT.
        apply vext; [rewrite vadd_len; rewrite vscale_len; lia|]. intros i. rewrite vadd_nth, vscale_nth by (rewrite vscale_len; lia). ring. }
      rewrite Z. change (vscale (dk k) (m00 :: mcol)) with (mul (dk k) m00 :: vscale (dk k) mcol).
      unfold PosOpt.vadd at 1. unfold PosOpt.vsub at 1. cbn [map2]. refine (f_equal2 cons _ eq_refl). ring. }
    assert (HV : hd0 v' = zero).
    { destruct j as [|j]; cbn [v_run] in OV; apply Forall_inv in OV; cbn [fst snd] in OV.
      - rewrite OV. reflexivity.
      - apply cons_eq in OV. tauto. }
    rewrite EV in HV, OV. change (sub (add (dot mrow v) cb0) (mul (dk k) m00) = zero) in HV. rewrite HV in OV.
    set (vt := vsub (vadd (p_mix mhat v) cbt) (vscale (dk k) mcol)) in *.
    assert (LVT : length vt = n).
    { unfold vt. rewrite vsub_len; rewrite vadd_len; rewrite ?vscale_len, ?mix_len, ?mcol_len, ?mhat_len; lia. }
    assert (EW : w_part (w0 :: w) k = add (add (mul m00 (sbox1 w0)) (dot mrow w)) cb0
       :: vadd (vadd (vscale (sbox1 w0) mcol) (p_mix mhat w)) cbt).
    { unfold w_part. cbn [s0]. rewrite msplit. fold cb. rewrite ECB. reflexivity. }
    rewrite EW. replace (Datatypes.S k) with (k + 1) by lia. rewrite <- (IH (k + 1) vt) ; [|lia|exact LVT| |exact OV].
    2:{ rewrite !vadd_len; rewrite ?vadd_len; rewrite ?vscale_len, ?mix_len, ?mcol_len, ?mhat_len; lia. }
    f_equal. f_equal.
    + assert (ED : dot mrow (vsub w v) = sub (dot mrow w) (dot mrow v)).
      { pose proof (mix_sub [mrow] w v ltac:(lia)) as E. rewrite !mix_cons in E. apply cons_eq in E. apply E. }
      rewrite ED. unfold a.
      transitivity (sub (add (add (mul m00 (sbox1 w0)) (dot mrow w)) cb0) (sub (add (dot mrow v) cb0) (mul (dk k) m00))); [ring|].
      rewrite HV. ring.
    + f_equal. unfold vt. rewrite mix_sub by lia.
      assert (L1 : length (p_mix mhat w) = n) by (rewrite mix_len; apply mhat_len).
      assert (L2 : length (p_mix mhat v) = n) by (rewrite mix_len; apply mhat_len).
      pose proof mcol_len as L3. assert (L4 : length cbt = n) by lia.
      set (X := p_mix mhat w) in *. set (Y := p_mix mhat v) in *. unfold a. set (dd := dk k). set (sw := sbox1 w0). set (mc := mcol) in *.
      clearbody X Y mc dd sw. clear - L1 L2 L3 L4 RT.
      apply vext.
      * repeat (first [rewrite vadd_len | rewrite vsub_len | rewrite vscale_len]; try lia).
      * intros i. repeat (first [rewrite vadd_nth | rewrite vsub_nth | rewrite vscale_nth];
          try (repeat (first [rewrite vadd_len | rewrite vsub_len | rewrite vscale_len]; try lia))); try lia. ring.
Qed.

(* the textbook permutation in the shifted coordinates *)
Definition w_full (i : nat) (w : list A) : list A := vadd (p_mix m (map sbox1 w)) (blk t c (i * t)).

Lemma p_add_blk K off st : length st = t -> p_add K off st = vadd st (blk t K off).
Proof. intros L. unfold PosRing.p_add, PosOpt.vadd, PosOpt.blk. rewrite L. reflexivity. Qed.
Lemma blkC_len off : off + t <= length C -> length (blk t C off) = t.
Proof. intros L. unfold PosOpt.blk. rewrite firstn_length, skipn_length. lia. Qed.
Lemma m_len : length m = t. Proof. apply SQ. Qed.

(* full rounds with constants moved before the matrix *)
Lemma full_rounds base i0 : forall k w, length w = t -> base + k * t <= length C -> i0 + k <= h + np + h ->
  (forall r, r < k -> p_mix m (blk t C (base + r * t)) = blk t c ((i0 + r) * t)) ->
  p_full A zero add mul sbox1 C m t base k w = fold_left (fun w i => w_full i w) (seq i0 k) w /\
  length (fold_left (fun w i => w_full i w) (seq i0 k) w) = t.
Proof.
  unfold p_full. induction k as [|k IH]; intros w L LB LI E; [split; [reflexivity|exact L]|].
  rewrite !seq_S, !fold_left_app. rewrite Nat.mul_succ_l in LB.
  destruct (IH w L) as [E1 L1]; [clear - LB; lia|clear - LI; lia|intros r R; apply E; clear - R; lia|]. rewrite E1.
  set (y := fold_left (fun w i => w_full i w) (seq i0 k) w) in *. clearbody y. cbn [fold_left Nat.add].
  assert (LBK : length (blk t C (base + k * t)) = t) by (apply blkC_len; clear - LB; lia).
  assert (LM : length (map sbox1 y) = t) by (rewrite map_length; exact L1).
  rewrite p_add_blk by exact LM. rewrite mix_add by lia. rewrite (E k) by lia. split; [reflexivity|].
  unfold w_full. rewrite vadd_len; rewrite mix_len, m_len; [reflexivity|]. symmetry. apply blk_i. lia.
Qed.

Lemma ob_full_facts : blk t C 0 = blk t c 0 /\
  (forall r, r < h - 1 -> p_mix m (blk t C (t + r * t)) = blk t c ((1 + r) * t)) /\
  (forall r, r < h - 1 -> p_mix m (blk t C ((h + 1) * t + np + r * t)) = blk t c ((h + np + 1 + r) * t)).
Proof.
  destruct ob_split as (F & _). unfold ob_full in F. apply Forall_inv in F as E. apply Forall_inv_tail in F.
  rewrite Forall_app in F. destruct F as (F1 & F2). split; [exact E|]. split; intros r R.
  - pose proof (in_ob _ _ F1 r ltac:(apply in_seq; lia)) as Q. cbn [fst snd] in Q. rewrite Q. f_equal. f_equal. lia.
  - pose proof (in_ob _ _ F2 r ltac:(apply in_seq; lia)) as Q. cbn [fst snd] in Q. rewrite Q. f_equal. f_equal. lia.
Qed.

Lemma p_first y : length y = t -> exists v, length v = n /\ v_0 A zero add mul sub idr h t c m C = zero :: v /\
  p_mix (cols t P) (vadd y (blk t C (h * t))) =
  hd0 (vadd (p_mix m y) (blk t c (h * t))) :: it mhat np (vsub (tl (vadd (p_mix m y) (blk t c (h * t)))) v).
Proof.
  intros LY. destruct ob_split as (_ & _ & _ & FP & FV). destruct s_facts as (_ & _ & SC & SE).
  assert (LBC : length (blk t C (h * t)) = t) by (apply blkC_len; rewrite Nat.mul_add_distr_r, Nat.mul_1_l in LC; clear - LC; lia).
  assert (LBc : length (blk t c (h * t)) = t) by (apply blk_i; lia).
  assert (LPM : length (p_mix m (blk t C (h * t))) = t) by (rewrite mix_len; apply m_len).
  assert (LMY : length (p_mix m y) = t) by (rewrite mix_len; apply m_len).
  set (bC := blk t C (h * t)) in *. set (bc := blk t c (h * t)) in *.
  assert (E0 : v_0 A zero add mul sub idr h t c m C = vsub bc (p_mix m bC)) by (unfold v_0, redv; rewrite map_id; reflexivity).
  assert (L0 : length (v_0 A zero add mul sub idr h t c m C) = t) by (rewrite E0, vsub_len; lia).
  destruct (v_0 A zero add mul sub idr h t c m C) as [|z v] eqn:EV; [discriminate L0|]. cbn [length] in L0.
  assert (z = zero) as ->.
  { destruct np as [|np']; [lia|]. cbn [v_run] in FV. apply Forall_inv in FV. cbn [fst snd] in FV. apply cons_eq in FV. apply FV. }
  exists v. split; [lia|]. split; [reflexivity|].
  assert (EW : vsub (vadd (p_mix m y) bc) (zero :: v) = p_mix m (vadd y bC)).
  { rewrite E0, mix_add by lia. set (X := p_mix m bC) in *. set (Y := p_mix m y) in *. clearbody X Y bc. clear - LMY LBc LPM RT.
    apply vext; [rewrite vsub_len; rewrite ?vadd_len; rewrite ?vsub_len; lia|]. intros i.
    rewrite vsub_nth; [|rewrite vadd_len; rewrite ?vsub_len; lia]. rewrite !vadd_nth, vsub_nth by lia. ring. }
  set (W := vadd (p_mix m y) bc) in *. assert (LW : length W = t) by (unfold W; rewrite vadd_len; lia). clearbody W.
  destruct W as [|w0 w]; [discriminate LW|]. cbn [length] in LW. change (hd0 (w0 :: w)) with w0. cbn [tl].
  assert (LU : length (vadd y bC) = t) by (rewrite vadd_len; lia). set (U := vadd y bC) in *. clearbody U. clear y LY LMY.
  destruct U as [|u0 u]; [discriminate LU|]. cbn [length] in LU. rewrite msplit in EW. unfold e_split in EW.
  change (vsub (w0 :: w) (zero :: v)) with (sub w0 zero :: vsub w v) in EW. apply cons_eq in EW. destruct EW as [EH ET].
  unfold ob_p in FP. set (Pm := cols t P) in *. assert (LP : length Pm = t) by apply cols_len.
  assert (RP : Forall (fun row => length row = t) Pm).
  { unfold Pm, PosRing.cols. apply Forall_forall. intros x X. apply in_map_iff in X. destruct X as (i & <- & _). rewrite map_length. apply SQp. }
  rewrite (mix_split Pm n) by assumption. unfold e_split.
  apply Forall_inv in FP as P0. apply Forall_inv_tail in FP. apply Forall_inv in FP as P1. apply Forall_inv_tail in FP. cbn [fst snd] in P0, P1.
  assert (ER : m_row A Pm = mrow) by (unfold m_row; rewrite P0; reflexivity). rewrite ER, P0.
  refine (f_equal2 cons _ _).
  - rewrite <- EH. ring.
  - rewrite ET. rewrite (it_vadd mhat n); [|apply mhat_len|rewrite vscale_len; apply mcol_len|rewrite mix_len; apply mhat_len].
    rewrite it_scale. refine (f_equal2 vadd _ _).
    + f_equal. unfold m_col at 1. rewrite P1. rewrite (scol_it (np - 1) 0) by lia. rewrite <- it_S. f_equal. lia.
    + apply combine_eq in FP.
      * unfold m_hat at 1. rewrite FP. replace (t - 1) with n by lia. rewrite (mpow_it n mhat mhat_rows), Nat2Pos.id by lia.
        rewrite it_add. reflexivity.
      * rewrite map_length. replace (t - 1) with n by lia.
        rewrite mpow_len, mhat_len. destruct Pm; [discriminate LP|]. cbn in *. lia.
Qed.

Definition f_at (i : nat) (w : list A) : list A := if (i <? h) || (h + np <=? i) then map sbox1 w else s0 w.
Definition p_ref (st : list A) : list A :=
  fold_left (fun st i => p_mix m (f_at i (p_add c (i * t) st))) (seq 0 (2 * h + np)) st.

Lemma f_at_len i w : length (f_at i w) = length w.
Proof. unfold f_at. destruct (_ || _); [apply map_length|]. destruct w; reflexivity. Qed.

Lemma ref_shift k x : length x = t -> k < h + np + h ->
  fold_left (fun st i => p_mix m (f_at i (p_add c (i * t) st))) (seq 0 (Datatypes.S k)) x
  = p_mix m (f_at k (fold_left (fun w i => vadd (p_mix m (f_at i w)) (blk t c ((i + 1) * t))) (seq 0 k) (vadd x (blk t c 0)))) /\
  length (fold_left (fun w i => vadd (p_mix m (f_at i w)) (blk t c ((i + 1) * t))) (seq 0 k) (vadd x (blk t c 0))) = t.
Proof.
  intros L. assert (B0 : length (blk t c 0) = t) by (change 0 with (0 * t); apply blk_i; lia).
  induction k as [|k IH]; intros K.
  - cbn [seq fold_left]. rewrite p_add_blk by exact L. split; [reflexivity|]. rewrite vadd_len; lia.
  - destruct (IH ltac:(lia)) as [E LE]. rewrite seq_S, fold_left_app, E. rewrite (seq_S k 0), fold_left_app.
    set (y := fold_left _ (seq 0 k) _) in *. clearbody y. cbn [fold_left Nat.add].
    assert (LM : length (p_mix m (f_at k y)) = t) by (rewrite mix_len; apply m_len).
    assert (LB : length (blk t c ((k + 1) * t)) = t) by (apply blk_i; lia).
    rewrite p_add_blk by exact LM. rewrite Nat.add_1_r. split; [reflexivity|]. rewrite Nat.add_1_r in LB. rewrite vadd_len; [exact LM|]. rewrite LB. exact LM.
Qed.

Lemma fold_shift {X} (f g : X -> nat -> X) k : forall a b x, (forall i y, a <= i -> i < a + k -> f y i = g y (i - a + b)) ->
  fold_left f (seq a k) x = fold_left g (seq b k) x.
Proof.
  induction k as [|k IH]; intros a b x H; [reflexivity|]. cbn [seq fold_left]. rewrite (H a x) by lia. replace (a - a + b) with b by lia.
  apply IH. intros i y I J. rewrite H by lia. f_equal. lia.
Qed.

Lemma p_opt_ref st : length st = t -> p_permute A zero add mul sbox1 (2 * h) np C S Mo P st = p_ref st.
Proof.
  intros L. unfold p_permute, p_ref. rewrite L. cbv zeta.
  assert (HH : 2 * h / 2 = h) by (rewrite Nat.mul_comm; apply Nat.div_mul; discriminate). rewrite HH.
  replace (h - 1 + 1) with h by lia. rewrite cols_m.
  destruct ob_full_facts as (O0 & O1 & O2).
  assert (B0 : length (blk t c 0) = t) by (change 0 with (0 * t); apply blk_i; lia).
  rewrite (p_add_blk C 0 st L). rewrite O0.
  replace (2 * h + np) with (Datatypes.S ((h - 1) + (1 + (np + (h - 1))))) by lia.
  destruct (ref_shift ((h - 1) + (1 + (np + (h - 1)))) st L ltac:(lia)) as [E _]. rewrite E. clear E.
  set (x0 := vadd st (blk t c 0)). assert (LX : length x0 = t) by (unfold x0; rewrite vadd_len; lia). clearbody x0. clear st L.
  rewrite !seq_app, !fold_left_app. cbn [Nat.add].
  set (F := fun w i => vadd (p_mix m (f_at i w)) (blk t c ((i + 1) * t))).
  assert (TC : t + (h - 1) * t <= length C /\ h * t + t <= length C /\ (h + 1) * t + np + (h - 1) * t <= length C).
  { clear - LC H1. pose proof (Nat.mul_add_distr_r h 1 t) as Q. pose proof (Nat.mul_sub_distr_r h 1 t) as Q2. rewrite Nat.mul_1_l in Q, Q2.
    assert (t <= h * t) by (rewrite <- (Nat.mul_1_l t) at 1; apply Nat.mul_le_mono_r; lia). lia. }
  destruct TC as (T1 & T2 & T3).
  (* first half *)
  destruct (full_rounds t 1 (h - 1) x0 LX T1 ltac:(lia) O1) as [E1 L1].
  assert (E1' : fold_left F (seq 0 (h - 1)) x0 = fold_left (fun w i => w_full i w) (seq 1 (h - 1)) x0).
  { apply fold_shift. intros i y _ I. unfold F, w_full, f_at. replace (i <? h) with true by (symmetry; apply Nat.ltb_lt; lia). cbn [orb].
    replace (i - 0 + 1) with (i + 1) by lia. reflexivity. }
  rewrite E1, <- E1'. rewrite <- E1' in L1. clear E1 E1'. set (x1 := fold_left F (seq 0 (h - 1)) x0) in *. clearbody x1. clear x0 LX.
  (* the round with P *)
  cbn [seq fold_left]. unfold F at 3. unfold f_at at 2. replace (h - 1 <? h) with true by (symmetry; apply Nat.ltb_lt; lia). cbn [orb].
  replace (h - 1 + 1) with h by lia.
  assert (LM1 : length (map sbox1 x1) = t) by (rewrite map_length; exact L1).
  rewrite p_add_blk by exact LM1. destruct (p_first (map sbox1 x1) LM1) as (v & LV & EV & EP). rewrite EP. clear EP.
  assert (LW : length (vadd (p_mix m (map sbox1 x1)) (blk t c (h * t))) = t).
  { assert (LB : length (blk t c (h * t)) = t) by (apply blk_i; lia). pose proof m_len as ML. rewrite vadd_len; rewrite mix_len; lia. }
  set (W := vadd (p_mix m (map sbox1 x1)) (blk t c (h * t))) in *. clearbody W. destruct W as [|w0 w]; [discriminate LW|]. cbn [length] in LW.
  change (hd0 (w0 :: w)) with w0. cbn [tl].
  (* partial rounds *)
  destruct ob_split as (_ & _ & _ & _ & FV). rewrite EV in FV.
  rewrite (partial_rounds np 0 v w0 w) by (try assumption; lia).
  assert (E2 : fold_left F (seq h np) (w0 :: w) = fold_left w_part (seq 0 np) (w0 :: w)).
  { apply fold_shift. intros i y I J. unfold F, w_part, f_at. replace (i <? h) with false by (symmetry; apply Nat.ltb_ge; lia).
    replace (h + np <=? i) with false by (symmetry; apply Nat.leb_gt; lia). cbn [orb]. replace (h + 1 + (i - h + 0)) with (i + 1) by lia. reflexivity. }
  replace (h - 1 + 1) with h in * by lia. rewrite E2.
  assert (L2 : forall k, k <= np -> length (fold_left w_part (seq 0 k) (w0 :: w)) = t).
  { intros k K. destruct k as [|k]; [cbn [seq fold_left length]; lia|]. rewrite seq_S, fold_left_app. cbn [fold_left]. unfold w_part at 1.
    assert (LB : length (blk t c ((h + 1 + (0 + k)) * t)) = t) by (apply blk_i; lia). pose proof m_len as ML. rewrite vadd_len; rewrite mix_len; lia. }
  specialize (L2 np (Nat.le_refl np)). set (x2 := fold_left w_part (seq 0 np) (w0 :: w)) in *. clearbody x2. clear E2.
  (* second half *)
  destruct (full_rounds ((h + 1) * t + np) (h + np + 1) (h - 1) x2 L2 T3 ltac:(lia) O2) as [E3 L3]. rewrite E3.
  assert (E3' : fold_left F (seq (h + np) (h - 1)) x2 = fold_left (fun w i => w_full i w) (seq (h + np + 1) (h - 1)) x2).
  { apply fold_shift. intros i y I J. unfold F, w_full, f_at. replace (h + np <=? i) with true by (symmetry; apply Nat.leb_le; lia).
    rewrite orb_true_r. replace (i - (h + np) + (h + np + 1)) with (i + 1) by lia. reflexivity. }
  rewrite E3'. unfold f_at. match goal with |- context [(?a <? h) || (h + np <=? ?a)] => replace (h + np <=? a) with true by (symmetry; apply Nat.leb_le; lia) end.
  rewrite orb_true_r. reflexivity.
Qed.

Lemma ref_ok st : length st = t -> permute_ref A zero add mul sbox1 (2 * h) np c m st = Ok (p_ref st) /\ length (p_ref st) = t.
Proof.
  intros L. unfold permute_ref, p_ref.
  assert (HH : 2 * h / 2 = h) by (rewrite Nat.mul_comm; apply Nat.div_mul; discriminate).
  apply (foldM_pure _ _ (fun st => length st = t)); [exact L|]. intros y i I LY. apply in_seq in I.
  split; [|rewrite mix_len; apply m_len].
  assert (LI : i * t + t <= length c).
  { apply Nat.le_trans with ((h + np + h) * t); [|exact Lc]. rewrite <- (Nat.mul_1_l t) at 2. rewrite <- Nat.mul_add_distr_r. apply Nat.mul_le_mono_r. lia. }
  unfold ark. rewrite LY, (add_consts_ok A zero) by (rewrite LY; exact LI). cbn [bind].
  assert (LA : length (p_add c (i * t) y) = t) by (rewrite p_add_len; rewrite LY; [reflexivity|exact LI]).
  unfold sbox. rewrite HH. unfold f_at.
  assert (ES : forall z, length z = t -> (if (i <? h) || (h + np <=? i) then Ok (map sbox1 z) else match z with [] => Panic | a :: r => Ok (sbox1 a :: r) end)
    = Ok (if (i <? h) || (h + np <=? i) then map sbox1 z else s0 z)).
  { intros z LZ. destruct (_ || _); [reflexivity|]. destruct z; [discriminate LZ|reflexivity]. }
  rewrite ES by exact LA. cbn [bind]. rewrite (mix_ok A zero one add mul sub opp RT); [reflexivity|].
  fold (f_at i (p_add c (i * t) y)). rewrite f_at_len, LA. exact SQ.
Qed.

Theorem opt_is_ref st : length st = t ->
  permute_opt A zero add mul sbox1 (2 * h) np C S Mo P st = permute_ref A zero add mul sbox1 (2 * h) np c m st /\
  exists r, permute_ref A zero add mul sbox1 (2 * h) np c m st = Ok r /\ length r = t.
Proof.
  intros L. destruct (ref_ok st L) as [E LR].
  assert (HH : 2 * h / 2 = h) by (rewrite Nat.mul_comm; apply Nat.div_mul; discriminate).
  destruct (permute_ok A zero one add mul sub opp RT sbox1 (2 * h) np C S Mo P st) as [E2 _].
  { unfold consts_ok. rewrite L, HH. repeat split; try assumption; try apply SQo; try apply SQp; try discriminate. lia. }
  rewrite E2, E, p_opt_ref by exact L. split; [reflexivity|]. exists (p_ref st). split; [reflexivity|exact LR].
Qed.
End Perm.
End R.
