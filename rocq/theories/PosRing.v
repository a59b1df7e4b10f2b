(* The scalar Poseidon functions of PosModel as total functions on lists, over any commutative ring. *)
From Verif Require Import Base ListAux HashModel AvxModel PosModel.
From Coq Require Import Ring.
Open Scope nat_scope.

Lemma vget_nth {A} (l : list A) i d : i < length l -> vget l i = Ok (nth i l d).
Proof. intros L. unfold vget. rewrite (nth_error_nth' l d L). reflexivity. Qed.

Lemma slice_ok {A} (l : list A) a n : a + n <= length l -> slice l a n = Ok (firstn n (skipn a l)).
Proof. intros L. unfold slice. replace (a + n <=? length l) with true by (symmetry; apply Nat.leb_le; exact L). reflexivity. Qed.

Lemma slice_map {A B} (f : A -> B) l a n : slice (map f l) a n = rmap (map f) (slice l a n).
Proof. unfold slice. rewrite map_length. destruct (a + n <=? length l); [|reflexivity]. cbn [rmap]. rewrite skipn_map, firstn_map. reflexivity. Qed.

Lemma skipn_cons {A} (l : list A) i d : i < length l -> skipn i l = nth i l d :: skipn (S i) l.
Proof. revert l; induction i as [|i IH]; intros [|a l] L; cbn [length] in L; try lia; [reflexivity|]. cbn [skipn nth]. rewrite (IH l) by lia. reflexivity. Qed.

Lemma foldM_pure {X Y} (f : Y -> X -> res Y) (g : Y -> X -> Y) (I : Y -> Prop) l y :
  I y -> (forall y x, In x l -> I y -> f y x = Ok (g y x) /\ I (g y x)) -> foldM f l y = Ok (fold_left g l y) /\ I (fold_left g l y).
Proof.
  revert y; induction l as [|x l IH]; intros y Iy H; [split; [reflexivity|exact Iy]|].
  cbn [foldM fold_left]. destruct (H y x (or_introl eq_refl) Iy) as [E J]. rewrite E. cbn [bind]. apply IH; [exact J|].
  intros. apply H; [right|]; assumption.
Qed.
Lemma mapM_pure {X Y} (f : X -> res Y) (g : X -> Y) l : (forall x, In x l -> f x = Ok (g x)) -> mapM f l = Ok (map g l).
Proof.
  induction l as [|x l IH]; intros H; [reflexivity|]. cbn [mapM map]. rewrite (H x (or_introl eq_refl)), IH; [reflexivity|].
  intros. apply H. right. assumption.
Qed.

Section R.
Variable A : Type.
Variables (zero one : A) (add mul sub : A -> A -> A) (opp : A -> A).
Hypothesis RT : ring_theory zero one add mul sub opp eq.
Variable sbox1 : A -> A.
Add Ring AR : RT.

Definition dot (x y : list A) : A := fold_right add zero (map2 mul x y).

Lemma dotM K st b n acc : b + n <= length K -> n <= length st ->
  foldM (fun acc j => bind (vget K (b + j)) (fun k => bind (vget st j) (fun s => Ok (add acc (mul k s))))) (seq 0 n) acc
  = Ok (add acc (dot (firstn n (skipn b K)) (firstn n st))).
Proof.
  intros LK LS.
  enough (G : forall m a acc, a + m = n ->
    foldM (fun acc j => bind (vget K (b + j)) (fun k => bind (vget st j) (fun s => Ok (add acc (mul k s))))) (seq a m) acc
    = Ok (add acc (dot (firstn m (skipn (b + a) K)) (firstn m (skipn a st))))).
  { rewrite (G n 0 acc eq_refl), Nat.add_0_r. reflexivity. }
  induction m as [|m IH]; intros a ac E.
  - cbn [seq foldM firstn dot map2 fold_right]. unfold dot. cbn [map2 fold_right]. f_equal. ring.
  - cbn [seq foldM]. rewrite (vget_nth K (b + a) zero) by lia. rewrite (vget_nth st a zero) by lia. cbn [bind].
    rewrite IH by lia. rewrite (skipn_cons K (b + a) zero) by lia. rewrite (skipn_cons st a zero) by lia.
    cbn [firstn]. unfold dot. cbn [map2 fold_right]. rewrite Nat.add_succ_r. f_equal. ring.
Qed.

(* pure versions *)
Definition p_add (C : list A) (off : nat) (st : list A) : list A := map2 add st (firstn (length st) (skipn off C)).
Definition p_mix (cols : list (list A)) (st : list A) : list A := map (fun c => dot c st) cols.
Definition p_full (C : list A) (cols : list (list A)) (t base n : nat) (st : list A) : list A :=
  fold_left (fun st r => p_mix cols (p_add C (base + r * t) (map sbox1 st))) (seq 0 n) st.
Definition p_partial (C S : list A) (t cbase : nat) (st : list A) (r : nat) : list A :=
  match st with
  | [] => []
  | a :: rest =>
    let a := add (sbox1 a) (nth (cbase + r) C zero) in
    dot (firstn t (skipn ((t * 2 - 1) * r) S)) (a :: rest)
    :: map2 (fun s c => add s (mul c a)) rest (firstn (t - 1) (skipn ((t * 2 - 1) * r + t) S))
  end.
Definition cols (t : nat) (M : list (list A)) : list (list A) := map (fun i => map (fun row => nth i row zero) M) (seq 0 t).

Lemma map2_length {X Y Z} (f : X -> Y -> Z) x y : length (map2 f x y) = Nat.min (length x) (length y).
Proof. revert y; induction x as [|a x IH]; intros [|b y]; try reflexivity. cbn [map2 length]. rewrite IH. reflexivity. Qed.

Lemma p_add_len C off st : off + length st <= length C -> length (p_add C off st) = length st.
Proof. intros. unfold p_add. rewrite map2_length, firstn_length, skipn_length. lia. Qed.
Lemma p_mix_len cs st : length (p_mix cs st) = length cs. Proof. apply map_length. Qed.
Lemma cols_len t M : length (cols t M) = t. Proof. unfold cols. rewrite map_length, seq_length. reflexivity. Qed.

Lemma add_consts_ok C st off : off + length st <= length C -> add_consts A add C off st = Ok (p_add C off st).
Proof.
  unfold p_add. revert off; induction st as [|a st IH]; intros off L; [reflexivity|]. cbn [length] in L.
  cbn [add_consts]. rewrite (vget_nth C off zero) by lia. cbn [bind]. rewrite IH by lia. cbn [bind].
  rewrite (skipn_cons C off zero) by lia. cbn [firstn map2 length]. rewrite Nat.add_1_r. reflexivity.
Qed.

Lemma rows_dot M st i n acc : length M = length st -> Forall (fun row => length row = n) M -> i < n ->
  foldM (fun acc j => bind (vget M j) (fun row => bind (vget row i) (fun m => bind (vget st j) (fun s => Ok (add acc (mul m s))))))
    (seq 0 (length st)) acc = Ok (add acc (dot (map (fun row => nth i row zero) M) st)).
Proof.
  intros LM F L.
  rewrite <- (firstn_all st) at 2. rewrite <- (firstn_all (map _ M)) at 1. rewrite map_length, LM.
  change (firstn (length st) (map (fun row => nth i row zero) M)) with (firstn (length st) (skipn 0 (map (fun row => nth i row zero) M))).
  rewrite <- dotM by (rewrite ?map_length; lia).
  assert (G : forall l acc, (forall j, In j l -> j < length st) ->
    foldM (fun acc j => bind (vget M j) (fun row => bind (vget row i) (fun m => bind (vget st j) (fun s => Ok (add acc (mul m s)))))) l acc
    = foldM (fun acc j => bind (vget (map (fun row => nth i row zero) M) (0 + j)) (fun k => bind (vget st j) (fun s => Ok (add acc (mul k s))))) l acc).
  { induction l as [|j l IH]; intros a H; [reflexivity|]. cbn [foldM Nat.add].
    assert (J : j < length st) by (apply H; left; reflexivity).
    rewrite (vget_nth M j []) by lia. rewrite (vget_nth (map _ M) j zero) by (rewrite map_length; lia). cbn [bind].
    assert (R : length (nth j M []) = n) by (rewrite Forall_forall in F; apply F; apply nth_In; lia).
    rewrite (vget_nth (nth j M []) i zero) by lia.
    rewrite (nth_indep (map _ M) zero (nth i [] zero)) by (rewrite map_length; lia).
    rewrite (map_nth (fun row => nth i row zero)). rewrite (vget_nth st j zero) by lia. cbn [bind].
    apply IH. intros. apply H. right. assumption. }
  apply G. intros j J. apply in_seq in J. lia.
Qed.

Definition square_m (t : nat) (M : list (list A)) : Prop := length M = t /\ Forall (fun row => length row = t) M.

Lemma dot0 x y : add zero (dot x y) = dot x y. Proof. ring. Qed.

Lemma mix_opt_ok M st : square_m (length st) M -> mix_opt A zero add mul M st = Ok (p_mix (cols (length st) M) st).
Proof.
  intros [L F]. unfold mix_opt, p_mix, cols. rewrite map_map. apply mapM_pure. intros i I. apply in_seq in I.
  rewrite (rows_dot M st i (length st)) by (try assumption; lia). rewrite dot0. reflexivity.
Qed.
Lemma mix_ok M st : square_m (length st) M -> mix A zero add mul M st = Ok (p_mix M st).
Proof.
  intros [L F]. unfold mix, p_mix.
  rewrite (mapM_pure _ (fun i => dot (nth i M []) st)).
  - f_equal. rewrite <- L. transitivity (map (fun c => dot c st) (map (fun i => nth i M []) (seq 0 (length M)))); [rewrite map_map; reflexivity|].
    f_equal. apply (nth_ext _ _ [] []); [rewrite map_length, seq_length; reflexivity|].
    intros n N. rewrite map_length, seq_length in N. rewrite (nth_indep _ [] (nth 0 M [])) by (rewrite map_length, seq_length; lia).
    rewrite (map_nth (fun i => nth i M [])), seq_nth by lia. reflexivity.
  - intros i I. apply in_seq in I. assert (R : length (nth i M []) = length st) by (rewrite Forall_forall in F; apply F; apply nth_In; lia).
    transitivity (foldM (fun acc j => bind (vget (nth i M []) (0 + j)) (fun k => bind (vget st j) (fun s => Ok (add acc (mul k s))))) (seq 0 (length st)) zero).
    + rewrite (vget_nth M i []) by lia. reflexivity.
    + rewrite dotM by lia. rewrite dot0. cbn [skipn]. rewrite firstn_all. rewrite <- R, firstn_all. reflexivity.
Qed.

Lemma partial_ok C S t cbase st r : length st = t -> t <> 0 -> cbase + r < length C -> (t * 2 - 1) * (r + 1) <= length S ->
  partial_opt A zero add mul sbox1 C S t cbase st r = Ok (p_partial C S t cbase st r).
Proof.
  intros L T LC LS. destruct st as [|a rest]; [cbn in L; lia|]. cbn [length] in L.
  unfold partial_opt, p_partial. rewrite (vget_nth C (cbase + r) zero) by exact LC. cbn [bind].
  set (a' := add (sbox1 a) (nth (cbase + r) C zero)).
  assert (LS' : (t * 2 - 1) * r + (t * 2 - 1) <= length S) by nia. cbn [length]. rewrite L.
  rewrite dotM by (cbn [length]; lia). cbn [bind]. rewrite dot0.
  replace (firstn t (a' :: rest)) with (a' :: rest) by (rewrite <- L; cbn [firstn]; rewrite firstn_all; reflexivity).
  enough (E : mapM (fun k => bind (vget S ((t * 2 - 1) * r + t + k - 1)) (fun c => bind (vget (a' :: rest) k) (fun s => Ok (add s (mul c a'))))) (seq 1 (t - 1))
    = Ok (map2 (fun s c => add s (mul c a')) rest (firstn (t - 1) (skipn ((t * 2 - 1) * r + t) S)))) by (rewrite E; reflexivity).
  set (b := (t * 2 - 1) * r + t) in *.
  assert (B : b + length rest <= length S) by lia. replace (t - 1) with (length rest) by lia. clearbody b. clear - B.
  enough (G : forall m k, k + m = length rest ->
    mapM (fun k => bind (vget S (b + k - 1)) (fun c => bind (vget (a' :: rest) k) (fun s => Ok (add s (mul c a'))))) (seq (1 + k) m)
    = Ok (map2 (fun s c => add s (mul c a')) (skipn k rest) (firstn m (skipn (b + k) S)))).
  { specialize (G (length rest) 0 eq_refl). replace (b + 0) with b in G by lia. exact G. }
  induction m as [|m IH]; intros k K.
  - cbn [seq mapM firstn]. destruct (skipn k rest); reflexivity.
  - cbn [seq mapM]. change (Datatypes.S (1 + k)) with (1 + Datatypes.S k). rewrite IH by lia.
    replace (b + (1 + k) - 1) with (b + k) by lia. rewrite (vget_nth S (b + k) zero) by lia. cbn [Nat.add].
    change (vget (a' :: rest) (Datatypes.S k)) with (vget rest k). rewrite (vget_nth rest k zero) by lia. cbn [bind].
    rewrite (skipn_cons rest k zero) by lia. rewrite (skipn_cons S (b + k) zero) by lia. rewrite Nat.add_succ_r. reflexivity.
Qed.
Lemma p_partial_len C S t cbase st r : length st = t -> t <> 0 -> (t * 2 - 1) * (r + 1) <= length S -> length (p_partial C S t cbase st r) = t.
Proof.
  intros L T LS. destruct st as [|a rest]; [cbn in L; lia|]. cbn [length] in L. cbn [p_partial length].
  rewrite map2_length, firstn_length, skipn_length. nia.
Qed.

Lemma full_ok C M t base n st : length st = t -> square_m t M -> base + n * t <= length C ->
  full_opt A zero add mul sbox1 C M t base n st = Ok (p_full C (cols t M) t base n st) /\ length (p_full C (cols t M) t base n st) = t.
Proof.
  intros L HM LC. unfold full_opt, p_full.
  apply (foldM_pure _ _ (fun st => length st = t)); [exact L|]. intros y r I Ly. apply in_seq in I.
  assert (B : base + r * t + t <= length C) by nia.
  rewrite add_consts_ok by (rewrite map_length; lia). cbn [bind].
  assert (L' : length (p_add C (base + r * t) (map sbox1 y)) = t) by (rewrite p_add_len; rewrite map_length; lia).
  rewrite mix_opt_ok by (rewrite L'; exact HM). rewrite L'. split; [reflexivity|]. rewrite p_mix_len. apply cols_len.
Qed.

Definition p_permute (nf np : nat) (C S : list A) (M P : list (list A)) (st : list A) : list A :=
  let t := length st in
  let h := nf / 2 in
  let st := p_add C 0 st in
  let st := p_full C (cols t M) t t (h - 1) st in
  let st := p_mix (cols t P) (p_add C ((h - 1 + 1) * t) (map sbox1 st)) in
  let st := fold_left (p_partial C S t ((h + 1) * t)) (seq 0 np) st in
  let st := p_full C (cols t M) t ((h + 1) * t + np) (h - 1) st in
  p_mix (cols t M) (map sbox1 st).

(* enough constants for a state of t elements *)
Definition consts_ok (nf np t : nat) (C S : list A) (M P : list (list A)) : Prop :=
  2 <= nf /\ t <> 0 /\ (nf / 2 + 1) * t + np + (nf / 2 - 1) * t <= length C /\ (t * 2 - 1) * np <= length S /\ square_m t M /\ square_m t P.

Lemma permute_ok nf np C S M P st : consts_ok nf np (length st) C S M P ->
  permute_opt A zero add mul sbox1 nf np C S M P st = Ok (p_permute nf np C S M P st) /\
  length (p_permute nf np C S M P st) = length st.
Proof.
  intros (NF & T & LC & LS & HM & HP). unfold permute_opt, p_permute. cbv zeta. set (t := length st) in *. set (h := nf / 2) in *.
  assert (H1 : 1 <= h) by (unfold h; apply Nat.div_le_lower_bound; lia). clearbody h.
  assert (E : (h - 1 + 1) = h) by lia. rewrite E.
  assert (B1 : h * t + t <= length C) by nia. assert (B2 : t + (h - 1) * t = h * t) by nia.
  rewrite add_consts_ok by (fold t; nia). cbn [bind].
  assert (L0 : length (p_add C 0 st) = t) by (apply p_add_len; fold t; nia). set (s0 := p_add C 0 st) in *. clearbody s0.
  destruct (full_ok C M t t (h - 1) s0 L0 HM ltac:(nia)) as [E1 L1]. rewrite E1. cbn [bind]. clear E1.
  set (s1 := p_full C (cols t M) t t (h - 1) s0) in *. clearbody s1.
  rewrite add_consts_ok by (rewrite map_length; lia). cbn [bind].
  assert (L2 : length (p_add C (h * t) (map sbox1 s1)) = t) by (rewrite p_add_len; rewrite map_length; lia).
  set (s2 := p_add C (h * t) (map sbox1 s1)) in *. clearbody s2.
  rewrite mix_opt_ok by (rewrite L2; exact HP). rewrite L2. cbn [bind].
  assert (L3 : length (p_mix (cols t P) s2) = t) by (rewrite p_mix_len; apply cols_len). set (s3 := p_mix (cols t P) s2) in *. clearbody s3.
  destruct (foldM_pure (partial_opt A zero add mul sbox1 C S t ((h + 1) * t)) (p_partial C S t ((h + 1) * t)) (fun st => length st = t) (seq 0 np) s3 L3) as [E4 L4].
  { intros y r I Ly. apply in_seq in I. split; [apply partial_ok|apply p_partial_len]; try assumption; nia. }
  rewrite E4. cbn [bind]. set (s4 := fold_left (p_partial C S t ((h + 1) * t)) (seq 0 np) s3) in *. clearbody s4. clear E4.
  destruct (full_ok C M t ((h + 1) * t + np) (h - 1) s4 L4 HM ltac:(nia)) as [E5 L5]. rewrite E5. cbn [bind].
  rewrite mix_opt_ok by (rewrite map_length, L5; exact HM). rewrite map_length, L5. split; [reflexivity|].
  rewrite p_mix_len. apply cols_len.
Qed.
End R.
