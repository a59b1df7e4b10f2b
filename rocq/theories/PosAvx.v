(* The vectorised Goldilocks Poseidon functions against the scalar one. *)
From Verif Require Import Base ListAux GlModel GlProof FrField HashModel AvxModel AvxProof PosModel PosRing PosProof.
From Coq Require Import Ring.
Open Scope nat_scope.
Add Ring FrR' : Fr_ring.

Notation dotF := (dot Fr f0 fadd fmul).
Notation colsF := (cols Fr f0).
Notation p_mixF := (p_mix Fr f0 fadd fmul).
Notation p_addF := (p_add Fr fadd).
Notation p_fullF := (p_full Fr f0 fadd fmul pow7).
Notation p_partialF := (p_partial Fr f0 fadd fmul pow7).

Definition blk (k : nat) (s : list Fr) : list Fr := firstn 4 (skipn (4 * k) s).
Lemma blks s : length s = 12 -> s = blk 0 s ++ blk 1 s ++ blk 2 s.
Proof. intros L. lanes s 12. reflexivity. Qed.
Lemma blk_len k s : length s = 12 -> k < 3 -> length (blk k s) = 4.
Proof. intros L K. unfold blk. rewrite firstn_length, skipn_length. lia. Qed.
Lemma firstn_map2 (f : Fr -> Fr -> Fr) m x y : firstn m (map2 f x y) = map2 f (firstn m x) (firstn m y).
Proof. revert x y; induction m as [|m IH]; intros [|a x] [|b y]; try reflexivity. cbn [map2 firstn]. rewrite IH. reflexivity. Qed.
Lemma skipn_map2 (f : Fr -> Fr -> Fr) n x y : skipn n (map2 f x y) = map2 f (skipn n x) (skipn n y).
Proof.
  revert x y; induction n as [|n IH]; intros [|a x] [|b y]; try reflexivity.
  - cbn [map2 skipn]. destruct (skipn n x); reflexivity.
  - cbn [map2 skipn]. apply IH.
Qed.
Lemma blk_map2 (f : Fr -> Fr -> Fr) k x y : blk k (map2 f x y) = map2 f (blk k x) (blk k y).
Proof. unfold blk. rewrite skipn_map2, firstn_map2. reflexivity. Qed.
Lemma blk_map (f : Fr -> Fr) k x : blk k (map f x) = map f (blk k x).
Proof. unfold blk. rewrite skipn_map, firstn_map. reflexivity. Qed.

(* four lanes of the product of the state and a row *)
Definition vrow (s r : list Fr) : list Fr := vsp (blk 0 s) (blk 1 s) (blk 2 s) (blk 0 r) (blk 1 r) (blk 2 r).
Lemma vrow_sum s r : length s = 12 -> length r = 12 ->
  exists y0 y1 y2 y3, vrow s r = [y0; y1; y2; y3] /\ fadd (fadd (fadd y0 y1) y2) y3 = dotF r s.
Proof.
  intros Ls Lr. lanes s 12. lanes r 12. do 4 eexists. split; [reflexivity|].
  unfold dot. cbn [map2 fold_right]. ring.
Qed.

(** * AVX2 *)

Definition rep (s : list Fr) : state3 := st3 (blk 0 s) (blk 1 s) (blk 2 s).

Lemma tr2 x0 x1 x2 x3 y0 y1 y2 y3 z0 z1 z2 z3 w0 w1 w2 w3 :
  transpose_add2 (map fint [x0; x1; x2; x3]) (map fint [y0; y1; y2; y3]) (map fint [z0; z1; z2; z3]) (map fint [w0; w1; w2; w3])
  = map fint [fadd (fadd (fadd x0 x1) x2) x3; fadd (fadd (fadd y0 y1) y2) y3; fadd (fadd (fadd z0 z1) z2) z3; fadd (fadd (fadd w0 w1) w2) w3].
Proof.
  unfold transpose_add2. cbn [map v2_permute_20 v2_permute_31 firstn skipn app v2_unpacklo v2_unpackhi].
  change [fint x0; fint y0; fint z0; fint w0] with (map fint [x0; y0; z0; w0]).
  change [fint x1; fint y1; fint z1; fint w1] with (map fint [x1; y1; z1; w1]).
  change [fint x2; fint y2; fint z2; fint w2] with (map fint [x2; y2; z2; w2]).
  change [fint x3; fint y3; fint z3; fint w3] with (map fint [x3; y3; z3; w3]).
  rewrite v2_add_l by reflexivity. rewrite v2_add_l by reflexivity. rewrite v2_add_l by reflexivity. reflexivity.
Qed.

Lemma slice_app {A} (a b c : list A) n m : length a = n -> length b = m -> slice (a ++ b ++ c) n m = Ok b.
Proof.
  intros La Lb. rewrite slice_ok by (rewrite !app_length; lia). f_equal.
  rewrite <- La, skipn_app, skipn_all, Nat.sub_diag, skipn_O. cbn [app].
  rewrite <- Lb, firstn_app, firstn_all, Nat.sub_diag, firstn_O, app_nil_r. reflexivity.
Qed.
Lemma slice_app0 {A} (b c : list A) m : length b = m -> slice (b ++ c) 0 m = Ok b.
Proof. intros. exact (slice_app [] b c 0 m eq_refl H). Qed.
Lemma slice_appn {A} (a b : list A) n m : length a = n -> length b = m -> slice (a ++ b) n m = Ok b.
Proof. intros. rewrite <- (app_nil_r b) at 1. apply slice_app; assumption. Qed.

Lemma slice_whole {A} (l : list A) n : length l = n -> slice l 0 n = Ok l.
Proof. intros L. rewrite <- (app_nil_r l) at 1. apply slice_app0. exact L. Qed.

Definition sp_ok (spmvf : state3 -> list Z -> res (list Z)) (s r : list Fr) : Prop :=
  spmvf (rep s) (map fint r) = Ok (map fint (vrow s r)).

Lemma mm4_2 spmvf s r0 r1 r2 r3 : length s = 12 -> length r0 = 12 -> length r1 = 12 -> length r2 = 12 -> length r3 = 12 ->
  sp_ok spmvf s r0 -> sp_ok spmvf s r1 -> sp_ok spmvf s r2 -> sp_ok spmvf s r3 ->
  mmult_4x12 4 transpose_add2 spmvf (rep s) (map fint (r0 ++ r1 ++ r2 ++ r3)) = Ok (map fint [dotF r0 s; dotF r1 s; dotF r2 s; dotF r3 s]).
Proof.
  intros Ls L0 L1 L2 L3 S0 S1 S2 S3. unfold mmult_4x12. rewrite !slice_map.
  change (3 * 4) with 12. change (6 * 4) with 24. change (9 * 4) with 36.
  rewrite slice_app0 by exact L0. cbn [rmap bind]. rewrite S0. cbn [bind].
  rewrite (slice_app r0 r1) by assumption. cbn [rmap bind]. rewrite S1. cbn [bind].
  replace (r0 ++ r1 ++ r2 ++ r3) with ((r0 ++ r1) ++ r2 ++ r3) by (rewrite <- app_assoc; reflexivity).
  rewrite (slice_app (r0 ++ r1) r2) by (rewrite ?app_length; lia). cbn [rmap bind]. rewrite S2. cbn [bind].
  replace ((r0 ++ r1) ++ r2 ++ r3) with ((r0 ++ r1 ++ r2) ++ r3) by (rewrite <- !app_assoc; reflexivity).
  rewrite slice_appn by (rewrite ?app_length; lia). cbn [rmap bind]. rewrite S3. cbn [bind].
  destruct (vrow_sum s r0 Ls L0) as (? & ? & ? & ? & -> & <-). destruct (vrow_sum s r1 Ls L1) as (? & ? & ? & ? & -> & <-).
  destruct (vrow_sum s r2 Ls L2) as (? & ? & ? & ? & -> & <-). destruct (vrow_sum s r3 Ls L3) as (? & ? & ? & ? & -> & <-).
  rewrite tr2. reflexivity.
Qed.

Lemma concat_len {A} n (l : list (list A)) : Forall (fun r => length r = n) l -> length (concat l) = length l * n.
Proof. induction 1 as [|r l R F IH]; [reflexivity|]. cbn [concat length]. rewrite app_length, IH, R. lia. Qed.

Lemma mm2 spmvf s rows : length s = 12 -> length rows = 12 -> Forall (fun r => length r = 12) rows -> Forall (sp_ok spmvf s) rows ->
  mmult 4 transpose_add2 spmvf (rep s) (map fint (concat rows)) = Ok (rep (p_mixF rows s)).
Proof.
  intros Ls LR F SP. lanes rows 12.
  repeat match goal with H : Forall _ (_ :: _) |- _ => inversion H; clear H; subst end.
  unfold mmult. change (12 * 4) with 48. change (24 * 4) with 96. rewrite !slice_map. cbn [concat]. rewrite app_nil_r.
  match goal with |- context [slice (?a ++ ?b ++ ?c ++ ?d ++ ?e) 0 48] => replace (a ++ b ++ c ++ d ++ e) with ((a ++ b ++ c ++ d) ++ e) by (rewrite <- !app_assoc; reflexivity) end.
  rewrite slice_app0 by (rewrite !app_length; lia). cbn [rmap bind]. rewrite mm4_2 by assumption. cbn [bind].
  match goal with |- context [slice (?a ++ ?b1 ++ ?b2 ++ ?b3 ++ ?b4 ++ ?c) 48 48] =>
    replace (a ++ b1 ++ b2 ++ b3 ++ b4 ++ c) with (a ++ (b1 ++ b2 ++ b3 ++ b4) ++ c) by (rewrite <- !app_assoc; reflexivity) end.
  rewrite slice_app by (rewrite !app_length; lia). cbn [rmap bind]. rewrite mm4_2 by assumption. cbn [bind].
  match goal with |- context [slice (?a ++ ?b ++ ?c) 96 48] => replace (a ++ b ++ c) with ((a ++ b) ++ c) by (rewrite <- !app_assoc; reflexivity) end.
  rewrite slice_appn by (rewrite !app_length; lia). cbn [rmap bind]. rewrite mm4_2 by assumption. reflexivity.
Qed.

Lemma spmv2_ok s r : length s = 12 -> length r = 12 -> sp_ok spmv2 s r.
Proof.
  intros Ls Lr. unfold sp_ok, rep, spmv2. rewrite (blks r Lr) at 1.
  rewrite (spmv_l 4 v2_add v2_mul ltac:(discriminate) v2_add_l v2_mul_l) by (apply blk_len; lia). reflexivity.
Qed.
Lemma spmv2_8_ok s r : length s = 12 -> length r = 12 -> Forall (fun c => small32 (fint c)) r ->
  sp_ok (spmv_8 4 v2_add v2_reduce128 mult_72_2) s r.
Proof.
  intros Ls Lr F. unfold sp_ok, rep. rewrite (blks r Lr) at 1.
  rewrite (spmv_8_l 4 v2_add v2_reduce128 mult_72_2 ltac:(discriminate) v2_add_all v2_reduce_all mult_72_2_l); try (apply blk_len; lia).
  - reflexivity.
  - rewrite <- (blks r Lr). exact F.
Qed.
Lemma add2_ok s c : length s = 12 -> length c = 12 -> add_avx 4 v2_add (rep s) (map fint c) = Ok (rep (map2 fadd s c)).
Proof.
  intros Ls Lc. unfold rep. rewrite (blks c Lc) at 1.
  rewrite (add_avx_l 4 v2_add ltac:(discriminate) v2_add_l) by (apply blk_len; lia). rewrite !blk_map2. reflexivity.
Qed.
Lemma pow2_ok s : pow7t2 (rep s) = rep (map pow7 s).
Proof. unfold pow7t2, rep. rewrite (pow7_triple_l v2_mul v2_square v2_mul_l v2_square_l). rewrite !blk_map. reflexivity. Qed.

Lemma colsF_rows t M : length M = t -> Forall (fun r => length r = t) (colsF t M).
Proof. intros L. unfold cols. apply Forall_forall. intros r R. apply in_map_iff in R. destruct R as (i & <- & _). rewrite map_length. exact L. Qed.

Definition small_m (M : list (list Fr)) : Prop := Forall (Forall (fun c => small32 (fint c))) M.
Lemma small_cols t M : small_m M -> Forall (fun r => length r = t) M -> Forall (Forall (fun c => small32 (fint c))) (colsF t M).
Proof.
  intros S L. unfold cols. apply Forall_forall. intros r R. apply in_map_iff in R. destruct R as (i & <- & I). apply in_seq in I.
  apply Forall_forall. intros x X. apply in_map_iff in X. destruct X as (row & <- & In').
  unfold small_m in S. rewrite Forall_forall in S, L. specialize (S row In'). specialize (L row In'). rewrite Forall_forall in S. apply S. apply nth_In. lia.
Qed.


Lemma full2_ok (C : list Fr) M base n s : length s = 12 -> square_m Fr 12 M -> small_m M -> base + n * 12 <= length C ->
  full2 (map fint C) (map fint (concat (colsF 12 M))) base n (rep s) = Ok (rep (p_fullF C (colsF 12 M) 12 base n s)) /\
  length (p_fullF C (colsF 12 M) 12 base n s) = 12.
Proof.
  intros Ls [LM FM] SM LC. unfold full2, p_full.
  assert (LCo : length (concat (colsF 12 M)) = 144) by (rewrite (concat_len 12) by (apply colsF_rows; exact LM); rewrite cols_len; reflexivity).
  rewrite (slice_whole (map fint (concat (colsF 12 M))) 144) by (rewrite map_length; exact LCo). cbn [bind].
  assert (G : forall l s, length s = 12 -> (forall r, In r l -> r < n) ->
    foldM (fun st r => bind (slice (map fint C) (base + r * 12) 12) (fun c => bind (add_avx 4 v2_add (pow7t2 st) c) (fun st =>
      mmult2_8 st (map fint (concat (colsF 12 M)))))) l (rep s)
    = Ok (rep (fold_left (fun st r => p_mixF (colsF 12 M) (p_addF C (base + r * 12) (map pow7 st))) l s)) /\
    length (fold_left (fun st r => p_mixF (colsF 12 M) (p_addF C (base + r * 12) (map pow7 st))) l s) = 12).
  { induction l as [|r l IH]; intros x Lx I; [split; [reflexivity|exact Lx]|]. cbn [foldM fold_left].
    assert (R : r < n) by (apply I; left; reflexivity). assert (B : base + r * 12 + 12 <= length C) by nia.
    rewrite slice_map, slice_ok by exact B. cbn [rmap bind]. rewrite pow2_ok.
    rewrite add2_ok by (rewrite ?map_length, ?firstn_length, ?skipn_length; lia). cbn [bind].
    assert (E : map2 fadd (map pow7 x) (firstn 12 (skipn (base + r * 12) C)) = p_addF C (base + r * 12) (map pow7 x)).
    { unfold p_add. rewrite map_length, Lx. reflexivity. }
    rewrite E.
    assert (L' : length (p_addF C (base + r * 12) (map pow7 x)) = 12) by (rewrite p_add_len; rewrite map_length; lia).
    rewrite (mm2 (spmv_8 4 v2_add v2_reduce128 mult_72_2) : forall s rows, _ -> _ -> _ -> _ -> mmult2_8 (rep s) _ = _); [|exact L'|apply cols_len|apply colsF_rows; exact LM|].
    - cbn [bind]. apply IH; [rewrite p_mix_len; apply cols_len|]. intros. apply I. right. assumption.
    - pose proof (colsF_rows 12 M LM) as F1. pose proof (small_cols 12 M SM FM) as F2.
      rewrite Forall_forall in *. intros row Hr. apply spmv2_8_ok; [exact L'|apply F1; exact Hr|apply F2; exact Hr]. }
  apply G; [exact Ls|]. intros r I. apply in_seq in I. lia.
Qed.

Section Repr.
Local Transparent fint.
Lemma repr_fint a : repr a = fint a. Proof. reflexivity. Qed.
Lemma fint_word r a : as_int r = fint a -> fe r -> of_word r = a.
Proof. intros E F. apply fint_inj. rewrite <- E. unfold fint. rewrite fw_of_word by exact F. reflexivity. Qed.
End Repr.
Lemma from_repr_fint a : from_repr_unwrap (fint a) = Ok a.
Proof.
  unfold from_repr_unwrap. destruct (from_repr_ok (fint a) (fint_range a)) as (r & E & F & A). rewrite E.
  rewrite (fint_word r a A F). reflexivity.
Qed.
Lemma from_repr_fints l : mapM from_repr_unwrap (map fint l) = Ok l.
Proof. induction l as [|a l IH]; [reflexivity|]. cbn [map mapM]. rewrite from_repr_fint, IH. reflexivity. Qed.

Lemma concat_nth {A} n (rows : list (list A)) i : Forall (fun r => length r = n) rows -> i < length rows ->
  slice (concat rows) (n * i) n = Ok (nth i rows []).
Proof.
  intros F I. assert (E : rows = firstn i rows ++ nth i rows [] :: skipn (S i) rows).
  { rewrite <- (firstn_skipn i rows) at 1. f_equal. apply skipn_cons. exact I. }
  rewrite E at 1. rewrite concat_app. cbn [concat]. apply slice_app.
  - rewrite (concat_len n).
    + rewrite firstn_length. lia.
    + rewrite <- (firstn_skipn i rows) in F. apply Forall_app in F. apply F.
  - rewrite Forall_forall in F. apply F. apply nth_In. exact I.
Qed.

(* the sparse constants of a partial round as two rows of twelve *)
Definition srows (S : list Fr) : list (list Fr) :=
  flat_map (fun r => [firstn 12 (skipn (23 * r) S); f0 :: firstn 11 (skipn (23 * r + 12) S)]) (seq 0 22).
Lemma srows_len S : length (srows S) = 44. Proof. reflexivity. Qed.
Lemma srows_nth S r : r < 22 -> nth (2 * r) (srows S) [] = firstn 12 (skipn (23 * r) S) /\ nth (2 * r + 1) (srows S) [] = f0 :: firstn 11 (skipn (23 * r + 12) S).
Proof.
  intros R. unfold srows.
  assert (G : forall n a r, r < n ->
    nth (2 * r) (flat_map (fun r => [firstn 12 (skipn (23 * r) S); f0 :: firstn 11 (skipn (23 * r + 12) S)]) (seq a n)) [] = firstn 12 (skipn (23 * (a + r)) S) /\
    nth (2 * r + 1) (flat_map (fun r => [firstn 12 (skipn (23 * r) S); f0 :: firstn 11 (skipn (23 * r + 12) S)]) (seq a n)) [] = f0 :: firstn 11 (skipn (23 * (a + r) + 12) S)).
  { clear. induction n as [|n IH]; intros a r R; [lia|]. destruct r as [|r].
    - rewrite Nat.add_0_r. split; reflexivity.
    - destruct (IH (Datatypes.S a) r ltac:(lia)) as [E1 E2]. replace (a + Datatypes.S r) with (Datatypes.S a + r) by lia.
      cbn [seq flat_map app]. replace (2 * Datatypes.S r) with (Datatypes.S (Datatypes.S (2 * r))) by lia.
      cbn [nth Nat.add]. split; [exact E1|exact E2]. }
  exact (G 22 0 r R).
Qed.
Lemma srows_12 S : 506 <= length S -> Forall (fun r => length r = 12) (srows S).
Proof.
  intros L. unfold srows. apply Forall_forall. intros x X. apply in_flat_map in X. destruct X as (r & I & X). apply in_seq in I.
  destruct X as [<-|[<-|[]]]; cbn [length]; rewrite firstn_length, skipn_length; lia.
Qed.

Lemma sum4_ok y0 y1 y2 y3 l : sum4 (map fint (y0 :: y1 :: y2 :: y3 :: l)) 0 = Ok (fadd (fadd (fadd y0 y1) y2) y3).
Proof. unfold sum4, lane_fr. cbn [map vget nth_error Nat.add bind]. rewrite !from_repr_fint. reflexivity. Qed.

Lemma nth_fint C i : i < length C -> vget (map fint C) i = Ok (fint (nth i C f0)).
Proof.
  intros L. rewrite (vget_nth _ i (fint f0)) by (rewrite map_length; exact L). rewrite (map_nth fint). reflexivity.
Qed.

Lemma lane0 a : [fint a; 0; 0; 0]%Z = map fint [a; f0; f0; f0].
Proof. cbn [map]. rewrite fint_0. reflexivity. Qed.
Lemma partial2_ok C S s r : length s = 12 -> r < 22 -> 60 + r < length C -> 506 <= length S ->
  partial2 (map fint C) (map fint (concat (srows S))) (rep s) r = Ok (rep (p_partialF C S 12 60 s r)).
Proof.
  intros Ls R LC LS. destruct (srows_nth S r R) as [N1 N2].
  pose proof (concat_nth 12 (srows S) (2 * r) (srows_12 S LS) ltac:(rewrite srows_len; lia)) as C1. rewrite N1 in C1.
  pose proof (concat_nth 12 (srows S) (2 * r + 1) (srows_12 S LS) ltac:(rewrite srows_len; lia)) as C2. rewrite N2 in C2. clear N1 N2.
  pose proof (nth_fint C (60 + r) LC) as HK.
  unfold p_partial. set (kc := nth (60 + r) C f0) in *. clearbody kc. change ((12 * 2 - 1) * r) with (23 * r). change (12 - 1) with 11.
  assert (K1 : length (firstn 12 (skipn (23 * r) S)) = 12) by (rewrite firstn_length, skipn_length; lia).
  assert (K2 : length (firstn 11 (skipn (23 * r + 12) S)) = 11) by (rewrite firstn_length, skipn_length; lia).
  set (R1 := firstn 12 (skipn (23 * r) S)) in *. set (R2 := firstn 11 (skipn (23 * r + 12) S)) in *. clearbody R1 R2.
  lanes s 12. unfold rep at 1, st3, blk. cbn [Nat.mul Nat.add skipn firstn].
  unfold partial2. change ((4 + 1) * 12 + r) with (60 + r).
  rewrite HK. cbn [map vget nth_error bind].
  rewrite !lane0.
  rewrite (vpow7_l v2_mul v2_square v2_mul_l v2_square_l). unfold pow7l.
  rewrite v2_add_l by reflexivity. cbn [map2 map vget nth_error bind vset vset_aux].
  rewrite !slice_map. replace (12 * 2 * r) with (12 * (2 * r)) by lia. rewrite C1, C2. cbn [rmap bind].
  match goal with |- context [spmv2 ?st] =>
    match st with ([fint ?a0; fint ?a1; fint ?a2; fint ?a3], [fint ?a4; fint ?a5; fint ?a6; fint ?a7], [fint ?a8; fint ?a9; fint ?a10; fint ?a11]) =>
      set (s' := [a0; a1; a2; a3; a4; a5; a6; a7; a8; a9; a10; a11]); change st with (rep s') end end.
  assert (Ls' : length s' = 12) by reflexivity.
  rewrite (spmv2_ok s' R1 Ls' K1). cbn [bind].
  destruct (vrow_sum s' R1 Ls' K1) as (y0 & y1 & y2 & y3 & E & Sum). rewrite E, sum4_ok, Sum. cbn [bind].
  lanes R2 11. unfold rep at 1.
  match goal with |- context [mult_add_avx 4 v2_add v2_mul _ [fint ?a; fint ?a; fint ?a; fint ?a] _] =>
    change [fint a; fint a; fint a; fint a] with (map fint [a; a; a; a]) end.
  match goal with |- context [map fint (FrField.f0 :: ?l)] => rewrite (blks (FrField.f0 :: l) eq_refl) end.
  rewrite (mult_add_l 4 v2_add v2_mul ltac:(discriminate) v2_add_l v2_mul_l) by reflexivity.
  cbn [bind]. unfold st3, blk, s'. cbn [Nat.mul Nat.add skipn firstn map2 map vset vset_aux bind].
  rewrite repr_fint. reflexivity.
Qed.

(* the tables have the lengths the functions read, and the full-round matrix has 32-bit entries *)
Definition gl_ok (g : glconsts) : Prop :=
  118 <= length (gc g) /\ 506 <= length (gs g) /\ square_m Fr 12 (gm g) /\ square_m Fr 12 (gp g) /\ small_m (gm g).
Definition av2_of (g : glconsts) : avconsts :=
  mkAV (map fint (gc g)) (map fint (concat (colsF 12 (gm g)))) (map fint (concat (colsF 12 (gp g)))) (map fint (concat (srows (gs g)))).

Definition gl_perm (g : glconsts) (s : list Fr) : list Fr := p_permute Fr f0 fadd fmul pow7 8 22 (gc g) (gs g) (gm g) (gp g) s.
Lemma gl_perm_ok g s : gl_ok g -> length s = 12 ->
  permute_opt Fr f0 fadd fmul pow7 8 22 (gc g) (gs g) (gm g) (gp g) s = Ok (gl_perm g s) /\ length (gl_perm g s) = 12.
Proof.
  intros (LC & LS & HM & HP & _) Ls.
  destruct (permute_ok Fr f0 f1 fadd fmul fsub fneg Fr_ring pow7 8 22 (gc g) (gs g) (gm g) (gp g) s) as [E L].
  - unfold consts_ok. rewrite Ls. change (8 / 2) with 4. repeat split; try apply HM; try apply HP; lia.
  - split; [exact E|]. unfold gl_perm. rewrite L. exact Ls.
Qed.

Lemma mat_len M : length M = 12 -> length (map fint (concat (colsF 12 M))) = 144.
Proof. intros L. rewrite map_length, (concat_len 12) by (apply colsF_rows; exact L). rewrite cols_len. reflexivity. Qed.

Lemma p_add12 C off s : length s = 12 -> map2 fadd s (firstn 12 (skipn off C)) = p_addF C off s.
Proof. intros L. unfold p_add. rewrite L. reflexivity. Qed.

Lemma mmult2_ok s M : length s = 12 -> length M = 12 -> mmult2 (rep s) (map fint (concat (colsF 12 M))) = Ok (rep (p_mixF (colsF 12 M) s)).
Proof.
  intros Ls LM. apply mm2; [exact Ls|apply cols_len|apply colsF_rows; exact LM|].
  pose proof (colsF_rows 12 M LM) as F. rewrite Forall_forall in *. intros r R. apply spmv2_ok; [exact Ls|apply F; exact R].
Qed.

Lemma pack_state s : length s = 12 -> pack3 4 (map fint s) = Ok (rep s).
Proof. intros L. rewrite (blks s L) at 1. apply pack3_fint; try (apply blk_len; lia). discriminate. Qed.
Lemma repr_map l : map repr l = map fint l. Proof. apply map_ext. exact repr_fint. Qed.

Lemma bind_assoc' {A B} (x : res A) (f : A -> res B) : bind x f = match x with Ok a => f a | Err => Err | Panic => Panic | Hang => Hang end.
Proof. destruct x; reflexivity. Qed.

Lemma partials2_ok C S s n : length s = 12 -> n <= 22 -> 60 + n <= length C -> 506 <= length S ->
  foldM (partial2 (map fint C) (map fint (concat (srows S)))) (seq 0 n) (rep s)
  = Ok (rep (fold_left (p_partialF C S 12 60) (seq 0 n) s)) /\ length (fold_left (p_partialF C S 12 60) (seq 0 n) s) = 12.
Proof.
  intros Ls N LC LS.
  assert (G : forall l s, length s = 12 -> (forall r, In r l -> r < n) ->
    foldM (partial2 (map fint C) (map fint (concat (srows S)))) l (rep s)
    = Ok (rep (fold_left (p_partialF C S 12 60) l s)) /\ length (fold_left (p_partialF C S 12 60) l s) = 12).
  { induction l as [|r l IH]; intros x Lx I; [split; [reflexivity|exact Lx]|]. cbn [foldM fold_left].
    assert (R : r < n) by (apply I; left; reflexivity).
    rewrite partial2_ok by (try assumption; lia). cbn [bind]. apply IH; [|intros; apply I; right; assumption].
    apply p_partial_len; [exact Lx|discriminate|]. lia. }
  apply G; [exact Ls|]. intros r I. apply in_seq in I. lia.
Qed.

Lemma avx2_state g s : gl_ok g -> length s = 12 ->
  bind (pack3 4 (map fint s)) (fun st =>
  bind (slice (vc (av2_of g)) 0 12) (fun c =>
  bind (add_avx 4 v2_add st c) (fun st =>
  bind (full2 (vc (av2_of g)) (vm (av2_of g)) 12 (8 / 2 - 1) st) (fun st =>
  bind (slice (vc (av2_of g)) 48 12) (fun c =>
  bind (add_avx 4 v2_add (pow7t2 st) c) (fun st =>
  bind (slice (vp (av2_of g)) 0 144) (fun p =>
  bind (mmult2 st p) (fun st =>
  bind (foldM (partial2 (vc (av2_of g)) (vs (av2_of g))) (seq 0 22) st) (fun st =>
  bind (full2 (vc (av2_of g)) (vm (av2_of g)) ((8 / 2 + 1) * 12 + 22) (8 / 2 - 1) st) (fun st =>
  bind (slice (vm (av2_of g)) 0 144) (fun m =>
  mmult2 (pow7t2 st) m))))))))))) = Ok (rep (gl_perm g s)).
Proof.
  intros (LC & LS & [LM FM] & [LP FP] & SM) Ls. unfold gl_perm, p_permute. rewrite Ls. cbv zeta.
  change (8 / 2) with 4. change (4 - 1 + 1) with 4. change (4 - 1) with 3. change (4 * 12) with 48. change ((4 + 1) * 12) with 60. change (60 + 22) with 82.
  unfold av2_of. cbn [vc vm vp vs]. rewrite pack_state by exact Ls. cbn [bind].
  rewrite !slice_map, !slice_ok by (try lia; rewrite <- (map_length fint), mat_len by assumption; lia). cbn [rmap bind].
  rewrite add2_ok by (rewrite ?firstn_length, ?skipn_length; lia). cbn [bind]. rewrite p_add12 by exact Ls.
  assert (L0 : length (p_addF (gc g) 0 s) = 12) by (rewrite p_add_len; lia).
  set (s0 := p_addF (gc g) 0 s) in *. clearbody s0.
  destruct (full2_ok (gc g) (gm g) 12 3 s0 L0 (conj LM FM) SM ltac:(lia)) as [E1 L1]. rewrite E1. cbn [bind]. clear E1.
  set (s1 := p_fullF (gc g) (colsF 12 (gm g)) 12 12 3 s0) in *. clearbody s1.
  rewrite pow2_ok, add2_ok by (rewrite ?map_length, ?firstn_length, ?skipn_length; lia). cbn [bind].
  rewrite p_add12 by (rewrite map_length; exact L1).
  assert (L2 : length (p_addF (gc g) 48 (map pow7 s1)) = 12) by (rewrite p_add_len; rewrite map_length; lia).
  set (s2 := p_addF (gc g) 48 (map pow7 s1)) in *. clearbody s2.
  cbn [skipn]. rewrite (firstn_all2 (concat (colsF 12 (gp g)))) by (rewrite <- (map_length fint), mat_len by assumption; lia).
  rewrite mmult2_ok by assumption. cbn [bind].
  assert (L3 : length (p_mixF (colsF 12 (gp g)) s2) = 12) by (rewrite p_mix_len; apply cols_len).
  set (s3 := p_mixF (colsF 12 (gp g)) s2) in *. clearbody s3.
  destruct (partials2_ok (gc g) (gs g) s3 22 L3 ltac:(lia) ltac:(lia) LS) as [E4 L4]. rewrite E4. cbn [bind]. clear E4.
  set (s4 := fold_left (p_partialF (gc g) (gs g) 12 60) (seq 0 22) s3) in *. clearbody s4.
  destruct (full2_ok (gc g) (gm g) 82 3 s4 L4 (conj LM FM) SM ltac:(lia)) as [E5 L5]. rewrite E5. cbn [bind]. clear E5.
  set (s5 := p_fullF (gc g) (colsF 12 (gm g)) 12 82 3 s4) in *. clearbody s5.
  rewrite (firstn_all2 (concat (colsF 12 (gm g)))) by (rewrite <- (map_length fint), mat_len by assumption; lia).
  rewrite pow2_ok, mmult2_ok by (rewrite ?map_length; assumption). reflexivity.
Qed.

Lemma avx2_eq g inp init out : gl_ok g ->
  avx2_hash (av2_of g) inp init out =
  if negb (length inp =? 8) then Err else if negb (length init =? 4) then Err
  else if out <=? 4 then gl_hash g inp init out else Panic.
Proof.
  intros G. unfold avx2_hash, gl_hash.
  destruct (length inp =? 8) eqn:E1; [|reflexivity]. destruct (length init =? 4) eqn:E2; [|reflexivity]. cbn [negb].
  apply Nat.eqb_eq in E1. apply Nat.eqb_eq in E2.
  assert (Ls : length (inp ++ init) = 12) by (rewrite app_length; lia).
  set (s := inp ++ init) in *. clearbody s. rewrite repr_map. cbv zeta.
  destruct (gl_perm_ok g s G Ls) as [EP LP]. rewrite EP. cbn [bind].
  pose proof (avx2_state g s G Ls) as ST.
  repeat match goal with
  | H : bind ?x ?f = Ok _ |- context [bind ?x ?h] => let E := fresh "E" in destruct x eqn:E; try discriminate H; cbn [bind] in H; cbn [bind]
  end.
  rewrite ST. cbn [bind]. unfold rep, st3. rewrite from_repr_fints. cbn [bind]. unfold take_out.
  set (q := gl_perm g s) in *. clearbody q. lanes q 12. unfold blk. cbn [Nat.mul skipn firstn].
  destruct out as [|[|[|[|[|out]]]]]; reflexivity.
Qed.

(** * AVX-512 *)

(* each group of four repeated *)
Fixpoint dup4 {A} (l : list A) : list A :=
  match l with a :: b :: c :: d :: r => a :: b :: c :: d :: a :: b :: c :: d :: dup4 r | _ => [] end.
Definition rep8 (s s' : list Fr) : state3 := st3 (blk 0 s ++ blk 0 s') (blk 1 s ++ blk 1 s') (blk 2 s ++ blk 2 s').

Lemma tr5 x0 x1 x2 x3 y0 y1 y2 y3 z0 z1 z2 z3 w0 w1 w2 w3 x0' x1' x2' x3' y0' y1' y2' y3' z0' z1' z2' z3' w0' w1' w2' w3' :
  transpose_add5 (map fint [x0; x1; x2; x3; x0'; x1'; x2'; x3']) (map fint [y0; y1; y2; y3; y0'; y1'; y2'; y3'])
    (map fint [z0; z1; z2; z3; z0'; z1'; z2'; z3']) (map fint [w0; w1; w2; w3; w0'; w1'; w2'; w3'])
  = map fint [fadd (fadd (fadd x0 x1) x2) x3; fadd (fadd (fadd y0 y1) y2) y3; fadd (fadd (fadd z0 z1) z2) z3; fadd (fadd (fadd w0 w1) w2) w3;
      fadd (fadd (fadd x0' x1') x2') x3'; fadd (fadd (fadd y0' y1') y2') y3'; fadd (fadd (fadd z0' z1') z2') z3'; fadd (fadd (fadd w0' w1') w2') w3'].
Proof.
  unfold transpose_add5, v5_interleave2, v5_permutex2var, INTERLEAVE2_IDX_A, INTERLEAVE2_IDX_B.
  cbn [map Nat.modulo Nat.div Nat.divmod Nat.odd Nat.even negb fst snd Nat.sub nth v5_unpacklo v5_unpackhi].
  change [fint x0; fint y0; fint z0; fint w0; fint x0'; fint y0'; fint z0'; fint w0'] with (map fint [x0; y0; z0; w0; x0'; y0'; z0'; w0']).
  change [fint x1; fint y1; fint z1; fint w1; fint x1'; fint y1'; fint z1'; fint w1'] with (map fint [x1; y1; z1; w1; x1'; y1'; z1'; w1']).
  change [fint x2; fint y2; fint z2; fint w2; fint x2'; fint y2'; fint z2'; fint w2'] with (map fint [x2; y2; z2; w2; x2'; y2'; z2'; w2']).
  change [fint x3; fint y3; fint z3; fint w3; fint x3'; fint y3'; fint z3'; fint w3'] with (map fint [x3; y3; z3; w3; x3'; y3'; z3'; w3']).
  rewrite v5_add_l by reflexivity. rewrite v5_add_l by reflexivity. rewrite v5_add_l by reflexivity. reflexivity.
Qed.

Lemma dup4_app {A} (x y : list A) k : length x = 4 * k -> dup4 (x ++ y) = dup4 x ++ dup4 y.
Proof.
  revert x; induction k as [|k IH]; intros x L.
  - destruct x; [reflexivity|discriminate L].
  - destruct x as [|a [|b [|c [|d x]]]]; cbn [length] in L; try lia. cbn [app dup4]. rewrite IH by lia. reflexivity.
Qed.
Lemma dup4_len {A} (x : list A) k : length x = 4 * k -> length (dup4 x) = 8 * k.
Proof.
  revert x; induction k as [|k IH]; intros x L.
  - destruct x; [reflexivity|discriminate L].
  - destruct x as [|a [|b [|c [|d x]]]]; cbn [length] in L; try lia. cbn [dup4 length]. rewrite IH by lia. lia.
Qed.
Lemma dup4_map {A B} (f : A -> B) (x : list A) k : length x = 4 * k -> map f (dup4 x) = dup4 (map f x).
Proof.
  revert x; induction k as [|k IH]; intros x L.
  - destruct x; [reflexivity|discriminate L].
  - destruct x as [|a [|b [|c [|d x]]]]; cbn [length] in L; try lia. cbn [dup4 map]. rewrite IH by lia. reflexivity.
Qed.
Lemma dup4_blks r : length r = 12 -> dup4 r = (blk 0 r ++ blk 0 r) ++ (blk 1 r ++ blk 1 r) ++ (blk 2 r ++ blk 2 r).
Proof. intros L. lanes r 12. reflexivity. Qed.
Lemma dup4_all {A} (Q : A -> Prop) x k : length x = 4 * k -> Forall Q x -> Forall Q (dup4 x).
Proof.
  revert x; induction k as [|k IH]; intros x L F.
  - destruct x; [constructor|discriminate L].
  - destruct x as [|a [|b [|c [|d x]]]]; cbn [length] in L; try lia.
    repeat match goal with H : Forall _ (_ :: _) |- _ => inversion H; clear H; subst end.
    cbn [dup4]. repeat (apply Forall_cons; [assumption|]). apply IH; [lia|assumption].
Qed.
Lemma dup4_concat {A} (l : list (list A)) k : Forall (fun r => length r = 4 * k) l -> dup4 (concat l) = concat (map dup4 l).
Proof. induction 1 as [|r l R F IH]; [reflexivity|]. cbn [concat map]. rewrite (dup4_app _ _ k) by exact R. rewrite IH. reflexivity. Qed.

Lemma bb_len k s s' : length s = 12 -> length s' = 12 -> k < 3 -> length (blk k s ++ blk k s') = 8.
Proof. intros. rewrite app_length, !blk_len by assumption. reflexivity. Qed.

Lemma vrow_app s s' r : length s = 12 -> length s' = 12 -> length r = 12 ->
  vsp (blk 0 s ++ blk 0 s') (blk 1 s ++ blk 1 s') (blk 2 s ++ blk 2 s') (blk 0 r ++ blk 0 r) (blk 1 r ++ blk 1 r) (blk 2 r ++ blk 2 r)
  = vrow s r ++ vrow s' r.
Proof.
  intros Ls Ls' Lr. lanes s 12. lanes s' 12. lanes r 12. reflexivity.
Qed.

Definition sp_ok5 (spmvf : state3 -> list Z -> res (list Z)) (s s' r : list Fr) : Prop :=
  spmvf (rep8 s s') (map fint (dup4 r)) = Ok (map fint (vrow s r ++ vrow s' r)).

Lemma spmv5_ok s s' r : length s = 12 -> length s' = 12 -> length r = 12 -> sp_ok5 spmv5 s s' r.
Proof.
  intros Ls Ls' Lr. unfold sp_ok5, rep8, spmv5. rewrite (dup4_blks r Lr).
  rewrite (spmv_l 8 v5_add v5_mul ltac:(discriminate) v5_add_l v5_mul_l) by (apply bb_len; lia). rewrite vrow_app by assumption. reflexivity.
Qed.
Lemma spmv5_8_ok s s' r : length s = 12 -> length s' = 12 -> length r = 12 -> Forall (fun c => small32 (fint c)) r ->
  sp_ok5 (spmv_8 8 v5_add v5_reduce128 mult_72_5) s s' r.
Proof.
  intros Ls Ls' Lr F. unfold sp_ok5, rep8. rewrite (dup4_blks r Lr).
  rewrite (spmv_8_l 8 v5_add v5_reduce128 mult_72_5 ltac:(discriminate) v5_add_all v5_reduce_all mult_72_5_l); try (apply bb_len; lia).
  - rewrite vrow_app by assumption. reflexivity.
  - rewrite <- (dup4_blks r Lr). apply (dup4_all _ r 3); assumption.
Qed.
Lemma add5_ok s s' c : length s = 12 -> length s' = 12 -> length c = 12 ->
  add_avx 8 v5_add (rep8 s s') (map fint (dup4 c)) = Ok (rep8 (map2 fadd s c) (map2 fadd s' c)).
Proof.
  intros Ls Ls' Lc. unfold rep8. rewrite (dup4_blks c Lc).
  rewrite (add_avx_l 8 v5_add ltac:(discriminate) v5_add_l) by (apply bb_len; lia).
  rewrite !map2_app by (rewrite !blk_len by lia; reflexivity). rewrite !blk_map2. reflexivity.
Qed.
Lemma pow5_ok s s' : pow7t5 (rep8 s s') = rep8 (map pow7 s) (map pow7 s').
Proof.
  unfold pow7t5, rep8. rewrite (pow7_triple_l v5_mul v5_square v5_mul_l v5_square_l). unfold pow7l. rewrite !map_app, !blk_map. reflexivity.
Qed.

Lemma mm4_5 spmvf s s' r0 r1 r2 r3 : length s = 12 -> length s' = 12 -> length r0 = 12 -> length r1 = 12 -> length r2 = 12 -> length r3 = 12 ->
  sp_ok5 spmvf s s' r0 -> sp_ok5 spmvf s s' r1 -> sp_ok5 spmvf s s' r2 -> sp_ok5 spmvf s s' r3 ->
  mmult_4x12 8 transpose_add5 spmvf (rep8 s s') (map fint (dup4 r0 ++ dup4 r1 ++ dup4 r2 ++ dup4 r3))
  = Ok (map fint [dotF r0 s; dotF r1 s; dotF r2 s; dotF r3 s; dotF r0 s'; dotF r1 s'; dotF r2 s'; dotF r3 s']).
Proof.
  intros Ls Ls' L0 L1 L2 L3 S0 S1 S2 S3. unfold mmult_4x12. rewrite !slice_map.
  change (3 * 8) with 24. change (6 * 8) with 48. change (9 * 8) with 72. unfold sp_ok5 in *.
  pose proof (dup4_len r0 3 L0) as D0. pose proof (dup4_len r1 3 L1) as D1. pose proof (dup4_len r2 3 L2) as D2. pose proof (dup4_len r3 3 L3) as D3.
  set (d0 := dup4 r0) in *. set (d1 := dup4 r1) in *. set (d2 := dup4 r2) in *. set (d3 := dup4 r3) in *. clearbody d0 d1 d2 d3.
  rewrite slice_app0 by exact D0. cbn [rmap bind]. rewrite S0. cbn [bind].
  rewrite (slice_app d0 d1) by assumption. cbn [rmap bind]. rewrite S1. cbn [bind].
  replace (d0 ++ d1 ++ d2 ++ d3) with ((d0 ++ d1) ++ d2 ++ d3) by (rewrite <- app_assoc; reflexivity).
  rewrite (slice_app (d0 ++ d1) d2) by (rewrite ?app_length; lia). cbn [rmap bind]. rewrite S2. cbn [bind].
  replace ((d0 ++ d1) ++ d2 ++ d3) with ((d0 ++ d1 ++ d2) ++ d3) by (rewrite <- !app_assoc; reflexivity).
  rewrite slice_appn by (rewrite ?app_length; lia). cbn [rmap bind]. rewrite S3. cbn [bind].
  destruct (vrow_sum s r0 Ls L0) as (? & ? & ? & ? & -> & <-). destruct (vrow_sum s r1 Ls L1) as (? & ? & ? & ? & -> & <-).
  destruct (vrow_sum s r2 Ls L2) as (? & ? & ? & ? & -> & <-). destruct (vrow_sum s r3 Ls L3) as (? & ? & ? & ? & -> & <-).
  destruct (vrow_sum s' r0 Ls' L0) as (? & ? & ? & ? & -> & <-). destruct (vrow_sum s' r1 Ls' L1) as (? & ? & ? & ? & -> & <-).
  destruct (vrow_sum s' r2 Ls' L2) as (? & ? & ? & ? & -> & <-). destruct (vrow_sum s' r3 Ls' L3) as (? & ? & ? & ? & -> & <-).
  cbn [app]. rewrite tr5. reflexivity.
Qed.

Lemma mm5 spmvf s s' rows : length s = 12 -> length s' = 12 -> length rows = 12 -> Forall (fun r => length r = 12) rows -> Forall (sp_ok5 spmvf s s') rows ->
  mmult 8 transpose_add5 spmvf (rep8 s s') (map fint (concat (map dup4 rows))) = Ok (rep8 (p_mixF rows s) (p_mixF rows s')).
Proof.
  intros Ls Ls' LR F SP. lanes rows 12.
  repeat match goal with H : Forall _ (_ :: _) |- _ => inversion H; clear H; subst end.
  unfold mmult. change (12 * 8) with 96. change (24 * 8) with 192. rewrite !slice_map. cbn [concat map]. rewrite app_nil_r.
  repeat match goal with H : length ?l = 12, _ : context [dup4 ?l] |- _ => 
    lazymatch goal with H' : length (dup4 l) = _ |- _ => fail | _ => pose proof (dup4_len l 3 H) end end.
  repeat match goal with H : length ?l = 12 |- context [dup4 ?l] =>
    lazymatch goal with H' : length (dup4 l) = _ |- _ => fail | _ => pose proof (dup4_len l 3 H) end end.
  match goal with |- context [slice (?a ++ ?b ++ ?c ++ ?d ++ ?e) 0 96] => replace (a ++ b ++ c ++ d ++ e) with ((a ++ b ++ c ++ d) ++ e) by (rewrite <- !app_assoc; reflexivity) end.
  rewrite slice_app0 by (rewrite !app_length; lia). cbn [rmap bind]. rewrite mm4_5 by assumption. cbn [bind].
  match goal with |- context [slice (?a ++ ?b1 ++ ?b2 ++ ?b3 ++ ?b4 ++ ?c) 96 96] =>
    replace (a ++ b1 ++ b2 ++ b3 ++ b4 ++ c) with (a ++ (b1 ++ b2 ++ b3 ++ b4) ++ c) by (rewrite <- !app_assoc; reflexivity) end.
  rewrite slice_app by (rewrite !app_length; lia). cbn [rmap bind]. rewrite mm4_5 by assumption. cbn [bind].
  match goal with |- context [slice (?a ++ ?b ++ ?c) 192 96] => replace (a ++ b ++ c) with ((a ++ b) ++ c) by (rewrite <- !app_assoc; reflexivity) end.
  rewrite slice_appn by (rewrite !app_length; lia). cbn [rmap bind]. rewrite mm4_5 by assumption. reflexivity.
Qed.

Definition mat5 (M : list (list Fr)) : list Z := map fint (concat (map dup4 (colsF 12 M))).
Lemma dup_rows rows : Forall (fun r : list Fr => length r = 12) rows -> Forall (fun r => length r = 24) (map dup4 rows).
Proof. intros F. rewrite Forall_forall in *. intros r R. apply in_map_iff in R. destruct R as (x & <- & X). apply (dup4_len x 3). apply F. exact X. Qed.
Lemma mat5_len M : length M = 12 -> length (mat5 M) = 288.
Proof.
  intros L. unfold mat5. rewrite map_length, (concat_len 24) by (apply dup_rows; apply colsF_rows; exact L). rewrite map_length, cols_len. reflexivity.
Qed.
Lemma mmult5_ok s s' M : length s = 12 -> length s' = 12 -> length M = 12 -> mmult5 (rep8 s s') (mat5 M) = Ok (rep8 (p_mixF (colsF 12 M) s) (p_mixF (colsF 12 M) s')).
Proof.
  intros Ls Ls' LM. apply mm5; [exact Ls|exact Ls'|apply cols_len|apply colsF_rows; exact LM|].
  pose proof (colsF_rows 12 M LM) as F. rewrite Forall_forall in *. intros r R. apply spmv5_ok; [exact Ls|exact Ls'|apply F; exact R].
Qed.
Lemma mmult5_8_ok s s' M : length s = 12 -> length s' = 12 -> square_m Fr 12 M -> small_m M ->
  mmult5_8 (rep8 s s') (mat5 M) = Ok (rep8 (p_mixF (colsF 12 M) s) (p_mixF (colsF 12 M) s')).
Proof.
  intros Ls Ls' [LM FM] SM. apply mm5; [exact Ls|exact Ls'|apply cols_len|apply colsF_rows; exact LM|].
  pose proof (colsF_rows 12 M LM) as F1. pose proof (small_cols 12 M SM FM) as F2.
  rewrite Forall_forall in *. intros r R. apply spmv5_8_ok; [exact Ls|exact Ls'|apply F1; exact R|apply F2; exact R].
Qed.

Lemma full5_ok (C : list Fr) C5 M base base5 n s s' : length s = 12 -> length s' = 12 -> square_m Fr 12 M -> small_m M -> base + n * 12 <= length C ->
  (forall r, r < n -> slice C5 (base5 + r * 24) 24 = Ok (map fint (dup4 (firstn 12 (skipn (base + r * 12) C))))) ->
  full5 C5 (mat5 M) base5 n (rep8 s s') = Ok (rep8 (p_fullF C (colsF 12 M) 12 base n s) (p_fullF C (colsF 12 M) 12 base n s')) /\
  length (p_fullF C (colsF 12 M) 12 base n s) = 12 /\ length (p_fullF C (colsF 12 M) 12 base n s') = 12.
Proof.
  intros Ls Ls' HM SM LC HC. unfold full5, p_full.
  rewrite (slice_whole (mat5 M) 288) by (apply mat5_len; apply HM). cbn [bind].
  assert (G : forall l s s', length s = 12 -> length s' = 12 -> (forall r, In r l -> r < n) ->
    foldM (fun st r => bind (slice C5 (base5 + r * 24) 24) (fun c => bind (add_avx 8 v5_add (pow7t5 st) c) (fun st => mmult5_8 st (mat5 M)))) l (rep8 s s')
    = Ok (rep8 (fold_left (fun st r => p_mixF (colsF 12 M) (p_addF C (base + r * 12) (map pow7 st))) l s)
               (fold_left (fun st r => p_mixF (colsF 12 M) (p_addF C (base + r * 12) (map pow7 st))) l s')) /\
    length (fold_left (fun st r => p_mixF (colsF 12 M) (p_addF C (base + r * 12) (map pow7 st))) l s) = 12 /\
    length (fold_left (fun st r => p_mixF (colsF 12 M) (p_addF C (base + r * 12) (map pow7 st))) l s') = 12).
  { induction l as [|r l IH]; intros x x' Lx Lx' I; [split; [reflexivity|split; assumption]|]. cbn [foldM fold_left].
    assert (R : r < n) by (apply I; left; reflexivity). assert (B : base + r * 12 + 12 <= length C) by nia.
    rewrite (HC r R). cbn [bind]. rewrite pow5_ok.
    rewrite add5_ok by (rewrite ?map_length, ?firstn_length, ?skipn_length; lia). cbn [bind].
    rewrite !p_add12 by (rewrite map_length; assumption).
    rewrite mmult5_8_ok by (try assumption; rewrite p_add_len; rewrite map_length; lia). cbn [bind].
    apply IH; [rewrite p_mix_len; apply cols_len|rewrite p_mix_len; apply cols_len|]. intros. apply I. right. assumption. }
  apply G; [exact Ls|exact Ls'|]. intros r I. apply in_seq in I. lia.
Qed.

Definition smat5 (S : list Fr) : list Z := map fint (concat (map dup4 (srows S))).

Lemma sum4_hi x0 x1 x2 x3 y0 y1 y2 y3 : sum4 (map fint [x0; x1; x2; x3; y0; y1; y2; y3]) 4 = Ok (fadd (fadd (fadd y0 y1) y2) y3).
Proof. unfold sum4, lane_fr. cbn [map vget nth_error Nat.add bind]. rewrite !from_repr_fint. reflexivity. Qed.
Lemma lane0_5 a b : [fint a; 0; 0; 0; fint b; 0; 0; 0]%Z = map fint [a; f0; f0; f0; b; f0; f0; f0].
Proof. cbn [map]. rewrite fint_0. reflexivity. Qed.

Lemma sbox5 a b k : v5_add (vpow7 v5_mul v5_square [fint a; 0; 0; 0; fint b; 0; 0; 0]%Z) [fint k; 0; 0; 0; fint k; 0; 0; 0]%Z
  = map fint [fadd (pow7 a) k; fadd (pow7 f0) f0; fadd (pow7 f0) f0; fadd (pow7 f0) f0; fadd (pow7 b) k; fadd (pow7 f0) f0; fadd (pow7 f0) f0; fadd (pow7 f0) f0].
Proof. rewrite !lane0_5. rewrite (vpow7_l v5_mul v5_square v5_mul_l v5_square_l). rewrite v5_add_l by reflexivity. reflexivity. Qed.
Lemma hd5 a b s s' : length s = 11 -> length s' = 11 ->
  vget (map fint (blk 0 (a :: s) ++ blk 0 (b :: s'))) 0 = Ok (fint a) /\ vget (map fint (blk 0 (a :: s) ++ blk 0 (b :: s'))) 4 = Ok (fint b).
Proof. intros L L'. lanes s 11. lanes s' 11. split; reflexivity. Qed.
Lemma set5 a b x y s s' : length s = 11 -> length s' = 11 ->
  bind (vset (map fint (blk 0 (a :: s) ++ blk 0 (b :: s'))) 0 (fint x)) (fun l => vset l 4 (fint y)) = Ok (map fint (blk 0 (x :: s) ++ blk 0 (y :: s'))).
Proof. intros L L'. lanes s 11. lanes s' 11. reflexivity. Qed.
Lemma blk_tl k (a b : Fr) s : blk (S k) (a :: s) = blk (S k) (b :: s).
Proof. unfold blk. replace (4 * S k) with (S (3 + 4 * k)) by lia. reflexivity. Qed.
Lemma bind_vset2 {B} l x y (f : list Z -> res B) l' : bind (vset l 0 x) (fun l => vset l 4 y) = Ok l' ->
  bind (vset l 0 x) (fun l => bind (vset l 4 y) f) = f l'.
Proof. destruct (vset l 0 x) as [a| | |]; cbn [bind]; try discriminate. intros ->. reflexivity. Qed.
Lemma mulrow s x k : length s = 11 -> length k = 11 ->
  map2 fadd (x :: s) (map2 fmul (f0 :: k) [x; x; x; x; x; x; x; x; x; x; x; x]) = fadd x (fmul f0 x) :: map2 (fun s c => fadd s (fmul c x)) s k.
Proof. intros L L'. lanes s 11. lanes k 11. reflexivity. Qed.

Lemma bind_Ok {A B} (x : A) (f : A -> res B) : bind (Ok x) f = f x.
Proof. reflexivity. Qed.
Lemma get5 a b z : vget (map fint [a; z; z; z; b; z; z; z]) 0 = Ok (fint a) /\ vget (map fint [a; z; z; z; b; z; z; z]) 4 = Ok (fint b).
Proof. split; reflexivity. Qed.
Lemma rmap_Ok {A B} (f : A -> B) x : rmap f (Ok x) = Ok (f x).
Proof. reflexivity. Qed.
Lemma partial5_ok C C5 S s s' r : length s = 12 -> length s' = 12 -> r < 22 -> 506 <= length S ->
  vget C5 (120 + r) = Ok (fint (nth (60 + r) C f0)) ->
  partial5 C5 (smat5 S) (rep8 s s') r = Ok (rep8 (p_partialF C S 12 60 s r) (p_partialF C S 12 60 s' r)).
Proof.
  intros Ls Ls' R LS HK. destruct (srows_nth S r R) as [N1 N2].
  pose proof (dup_rows _ (srows_12 S LS)) as D24.
  pose proof (concat_nth 24 (map dup4 (srows S)) (2 * r) D24 ltac:(rewrite map_length, srows_len; lia)) as C1.
  pose proof (concat_nth 24 (map dup4 (srows S)) (2 * r + 1) D24 ltac:(rewrite map_length, srows_len; lia)) as C2.
  rewrite (map_nth dup4 (srows S) []) in C1, C2. rewrite N1 in C1. rewrite N2 in C2. clear N1 N2 D24.
  replace (24 * (2 * r)) with (24 * 2 * r) in C1 by lia.
  unfold p_partial. set (kc := nth (60 + r) C f0) in *. clearbody kc. change ((12 * 2 - 1) * r) with (23 * r). change (12 - 1) with 11.
  assert (K1 : length (firstn 12 (skipn (23 * r) S)) = 12) by (rewrite firstn_length, skipn_length; lia).
  assert (K2 : length (firstn 11 (skipn (23 * r + 12) S)) = 11) by (rewrite firstn_length, skipn_length; lia).
  set (R1 := firstn 12 (skipn (23 * r) S)) in *. set (R2 := firstn 11 (skipn (23 * r + 12) S)) in *. clearbody R1 R2.
  destruct s as [|a s]; [discriminate Ls|]. destruct s' as [|b s']; [discriminate Ls'|].
  assert (L1 : length s = 11) by (cbn [length] in Ls; lia). assert (L1' : length s' = 11) by (cbn [length] in Ls'; lia).
  unfold rep8 at 1, st3, partial5, smat5. change ((4 + 1) * 24 + r) with (120 + r).
  destruct (hd5 a b s s' L1 L1') as [H0 H4].
  rewrite H0, bind_Ok.
  rewrite H4, bind_Ok.
  rewrite HK, bind_Ok.
  rewrite sbox5.
  set (a' := fadd (pow7 a) kc). set (b' := fadd (pow7 b) kc). clearbody a' b'. cbv zeta.
  rewrite (proj1 (get5 a' b' _)), bind_Ok, (proj2 (get5 a' b' _)), bind_Ok.
  rewrite (bind_vset2 _ _ _ _ _ (set5 a b a' b' s s' L1 L1')).
  rewrite !slice_map, C1, C2, !rmap_Ok, bind_Ok.
  rewrite (blk_tl 0 a a' s), (blk_tl 1 a a' s), (blk_tl 0 b b' s'), (blk_tl 1 b b' s').
  set (x := a' :: s). set (x' := b' :: s').
  assert (Lx : length x = 12) by (unfold x; cbn [length]; lia). assert (Lx' : length x' = 12) by (unfold x'; cbn [length]; lia).
  pose proof (spmv5_ok x x' R1 Lx Lx' K1) as SP. unfold sp_ok5, rep8, st3 in SP. rewrite SP, bind_Ok. clear SP.
  destruct (vrow_sum x R1 Lx K1) as (y0 & y1 & y2 & y3 & E & Sum). destruct (vrow_sum x' R1 Lx' K1) as (z0 & z1 & z2 & z3 & E' & Sum').
  rewrite E, E'. cbn [app]. rewrite sum4_ok, sum4_hi, Sum, Sum', !bind_Ok.
  rewrite (dup4_blks (f0 :: R2)) by (cbn [length]; lia).
  pose proof (mult_add_l 8 v5_add v5_mul ltac:(discriminate) v5_add_l v5_mul_l (blk 0 x ++ blk 0 x') (blk 1 x ++ blk 1 x') (blk 2 x ++ blk 2 x')
    [a'; a'; a'; a'; b'; b'; b'; b'] (blk 0 (f0 :: R2) ++ blk 0 (f0 :: R2)) (blk 1 (f0 :: R2) ++ blk 1 (f0 :: R2)) (blk 2 (f0 :: R2) ++ blk 2 (f0 :: R2))) as MA.
  specialize (MA ltac:(apply bb_len; lia) ltac:(apply bb_len; lia) ltac:(apply bb_len; lia) eq_refl
    ltac:(apply bb_len; cbn [length]; lia) ltac:(apply bb_len; cbn [length]; lia) ltac:(apply bb_len; cbn [length]; lia)).
  assert (EX : forall k, k < 3 -> map2 fadd (blk k x ++ blk k x') (map2 fmul (blk k (f0 :: R2) ++ blk k (f0 :: R2)) [a'; a'; a'; a'; b'; b'; b'; b'])
    = blk k (fadd a' (fmul f0 a') :: map2 (fun s c => fadd s (fmul c a')) s R2) ++ blk k (fadd b' (fmul f0 b') :: map2 (fun s c => fadd s (fmul c b')) s' R2)).
  { intros k K. rewrite <- (mulrow s a' R2 L1 K2), <- (mulrow s' b' R2 L1' K2). fold x. fold x'.
    assert (LB : forall q : list Fr, length q = 12 -> length (blk k q) = 4) by (intros q Q; apply blk_len; assumption).
    assert (L0 : length (f0 :: R2) = 12) by (cbn [length]; lia).
    change [a'; a'; a'; a'; b'; b'; b'; b'] with ([a'; a'; a'; a'] ++ [b'; b'; b'; b']).
    rewrite map2_app by (rewrite LB by exact L0; reflexivity).
    rewrite map2_app by (rewrite map2_len; rewrite ?LB by assumption; reflexivity).
    rewrite !blk_map2. f_equal; f_equal; f_equal; destruct k as [|[|[|k]]]; try lia; reflexivity. }
  rewrite !EX in MA by lia. unfold st3 in MA. cbn [map] in MA. rewrite MA, bind_Ok. clear MA EX. cbv beta iota.
  rewrite (repr_fint (dotF R1 x)), (repr_fint (dotF R1 x')).
  assert (M1 : length (map2 (fun s c => fadd s (fmul c a')) s R2) = 11) by (rewrite map2_len; congruence).
  assert (M2 : length (map2 (fun s c => fadd s (fmul c b')) s' R2) = 11) by (rewrite map2_len; congruence).
  rewrite (bind_vset2 _ _ _ _ _ (set5 _ _ (dotF R1 x) (dotF R1 x') _ _ M1 M2)).
  rewrite (blk_tl 0 _ (dotF R1 x)), (blk_tl 1 _ (dotF R1 x)), (blk_tl 0 (fadd b' _) (dotF R1 x')), (blk_tl 1 (fadd b' _) (dotF R1 x')).
  reflexivity.
Qed.

Lemma partials5_ok C C5 S s s' : length s = 12 -> length s' = 12 -> 506 <= length S ->
  (forall r, r < 22 -> vget C5 (120 + r) = Ok (fint (nth (60 + r) C f0))) ->
  foldM (partial5 C5 (smat5 S)) (seq 0 22) (rep8 s s')
  = Ok (rep8 (fold_left (p_partialF C S 12 60) (seq 0 22) s) (fold_left (p_partialF C S 12 60) (seq 0 22) s')) /\
  length (fold_left (p_partialF C S 12 60) (seq 0 22) s) = 12 /\ length (fold_left (p_partialF C S 12 60) (seq 0 22) s') = 12.
Proof.
  intros Ls Ls' LS HC.
  assert (G : forall l s s', length s = 12 -> length s' = 12 -> (forall r, In r l -> r < 22) ->
    foldM (partial5 C5 (smat5 S)) l (rep8 s s')
    = Ok (rep8 (fold_left (p_partialF C S 12 60) l s) (fold_left (p_partialF C S 12 60) l s')) /\
    length (fold_left (p_partialF C S 12 60) l s) = 12 /\ length (fold_left (p_partialF C S 12 60) l s') = 12).
  { induction l as [|r l IH]; intros x x' Lx Lx' I; [split; [reflexivity|split; assumption]|]. cbn [foldM fold_left].
    assert (R : r < 22) by (apply I; left; reflexivity).
    rewrite (partial5_ok C) by (try assumption; apply HC; exact R). cbn [bind].
    apply IH; [| |intros; apply I; right; assumption]; apply p_partial_len; try assumption; try discriminate; lia. }
  apply G; [exact Ls|exact Ls'|]. intros r I. apply in_seq in I. lia.
Qed.

(* the doubled constants *)
Definition c5 (C : list Fr) : list Fr := dup4 (firstn 60 C) ++ firstn 22 (skipn 60 C) ++ dup4 (firstn 36 (skipn 82 C)).
Definition av5_of (g : glconsts) : avconsts :=
  mkAV (map fint (c5 (gc g))) (mat5 (gm g)) (mat5 (gp g)) (smat5 (gs g)).

Lemma slice_dup {A} (x y : list A) a b k : length x = 4 * k -> a + b <= k ->
  slice (dup4 x ++ y) (8 * a) (8 * b) = Ok (dup4 (firstn (4 * b) (skipn (4 * a) x))).
Proof.
  intros L H. rewrite <- (firstn_skipn (4 * a) x) at 1. set (x1 := firstn (4 * a) x). set (x2 := skipn (4 * a) x).
  assert (L1 : length x1 = 4 * a) by (unfold x1; rewrite firstn_length; lia).
  assert (L2 : length x2 = 4 * (k - a)) by (unfold x2; rewrite skipn_length; lia).
  rewrite <- (firstn_skipn (4 * b) x2) at 1. set (x3 := firstn (4 * b) x2). set (x4 := skipn (4 * b) x2).
  assert (L3 : length x3 = 4 * b) by (unfold x3; rewrite firstn_length; lia).
  rewrite (dup4_app x1 _ a L1), (dup4_app x3 _ b L3), <- !app_assoc.
  apply slice_app; apply dup4_len; assumption.
Qed.
Lemma slice_app_r {A} (x y : list A) a n : length x <= a -> slice (x ++ y) a n = slice y (a - length x) n.
Proof.
  intros L. unfold slice. rewrite app_length.
  replace (a + n <=? length x + length y) with (a - length x + n <=? length y).
  - rewrite skipn_app, skipn_all2 by exact L. reflexivity.
  - destruct (Nat.leb_spec (a - length x + n) (length y)), (Nat.leb_spec (a + n) (length x + length y)); try reflexivity; lia.
Qed.
Lemma firstn_skipn_firstn {A} (l : list A) n m k : n + m <= k -> firstn m (skipn n (firstn k l)) = firstn m (skipn n l).
Proof. intros. rewrite skipn_firstn_comm, firstn_firstn. f_equal. lia. Qed.
Lemma nth_skipn0 {A} (l : list A) n i d : nth i (skipn n l) d = nth (n + i) l d.
Proof. revert l; induction n as [|n IH]; intros l; [reflexivity|]. destruct l; [destruct i; reflexivity|]. cbn [skipn Nat.add nth]. apply IH. Qed.
Lemma nth_firstn0 {A} (l : list A) n i d : i < n -> nth i (firstn n l) d = nth i l d.
Proof. revert l i; induction n as [|n IH]; intros l i H; [lia|]. destruct l; [reflexivity|]. destruct i; [reflexivity|]. cbn [firstn nth]. apply IH. lia. Qed.

Lemma c5_first C r : 118 <= length C -> r < 5 -> slice (map fint (c5 C)) (r * 24) 24 = Ok (map fint (dup4 (firstn 12 (skipn (r * 12) C)))).
Proof.
  intros L R. unfold c5. rewrite slice_map. replace (r * 24) with (8 * (3 * r)) by lia. change 24 with (8 * 3).
  rewrite (slice_dup _ _ (3 * r) 3 15) by (rewrite ?firstn_length; lia). cbn [rmap]. change (4 * 3) with 12.
  replace (4 * (3 * r)) with (r * 12) by lia. rewrite firstn_skipn_firstn by lia. reflexivity.
Qed.
Lemma c5_mid C r : 118 <= length C -> r < 22 -> vget (map fint (c5 C)) (120 + r) = Ok (fint (nth (60 + r) C f0)).
Proof.
  intros L R. assert (LD : length (dup4 (firstn 60 C)) = 120) by (apply (dup4_len _ 15); rewrite firstn_length; lia).
  assert (LD' : length (dup4 (firstn 36 (skipn 82 C))) = 72) by (apply (dup4_len _ 9); rewrite firstn_length, skipn_length; lia).
  rewrite nth_fint by (unfold c5; rewrite !app_length, LD, LD', firstn_length, skipn_length; lia).
  unfold c5. rewrite app_nth2 by (rewrite LD; lia). rewrite LD, app_nth1 by (rewrite firstn_length, skipn_length; lia).
  rewrite nth_firstn0 by lia. rewrite nth_skipn0. do 3 f_equal. lia.
Qed.
Lemma c5_last C r : 118 <= length C -> r < 3 -> slice (map fint (c5 C)) (142 + r * 24) 24 = Ok (map fint (dup4 (firstn 12 (skipn (82 + r * 12) C)))).
Proof.
  intros L R. assert (LD : length (dup4 (firstn 60 C)) = 120) by (apply (dup4_len _ 15); rewrite firstn_length; lia).
  assert (LF : length (firstn 22 (skipn 60 C)) = 22) by (rewrite firstn_length, skipn_length; lia).
  unfold c5. rewrite slice_map, slice_app_r by (rewrite LD; lia). rewrite LD, slice_app_r by (rewrite LF; lia). rewrite LF.
  replace (142 + r * 24 - 120 - 22) with (8 * (3 * r)) by lia. set (d := dup4 (firstn 36 (skipn 82 C))). change 24 with (8 * 3). unfold d. clear d.
  rewrite <- (app_nil_r (dup4 (firstn 36 (skipn 82 C)))). rewrite (slice_dup _ _ (3 * r) 3 9) by (rewrite ?firstn_length, ?skipn_length; lia). rewrite rmap_Ok.
  change (4 * 3) with 12. replace (4 * (3 * r)) with (r * 12) by lia. rewrite firstn_skipn_firstn by lia.
  rewrite skipn_skipn'. reflexivity.
Qed.

Lemma pack_state5 s s' : length s = 12 -> length s' = 12 ->
  pack3 8 (map fint ((blk 0 s ++ blk 0 s') ++ (blk 1 s ++ blk 1 s') ++ (blk 2 s ++ blk 2 s'))) = Ok (rep8 s s').
Proof. intros L L'. apply pack3_fint; try (apply bb_len; lia). discriminate. Qed.

Lemma avx512_state g s s' z : gl_ok g -> length s = 12 -> length s' = 12 -> z = map fint ((blk 0 s ++ blk 0 s') ++ (blk 1 s ++ blk 1 s') ++ (blk 2 s ++ blk 2 s')) ->
  bind (pack3 8 z) (fun st =>
  bind (slice (vc (av5_of g)) 0 24) (fun c =>
  bind (add_avx 8 v5_add st c) (fun st =>
  bind (full5 (vc (av5_of g)) (vm (av5_of g)) 24 (8 / 2 - 1) st) (fun st =>
  bind (slice (vc (av5_of g)) 96 24) (fun c =>
  bind (add_avx 8 v5_add (pow7t5 st) c) (fun st =>
  bind (slice (vp (av5_of g)) 0 288) (fun p =>
  bind (mmult5 st p) (fun st =>
  bind (foldM (partial5 (vc (av5_of g)) (vs (av5_of g))) (seq 0 22) st) (fun st =>
  bind (full5 (vc (av5_of g)) (vm (av5_of g)) ((8 / 2 + 1) * 24 + 22) (8 / 2 - 1) st) (fun st =>
  bind (slice (vm (av5_of g)) 0 288) (fun m =>
  mmult5 (pow7t5 st) m))))))))))) = Ok (rep8 (gl_perm g s) (gl_perm g s')).
Proof.
  intros (LC & LS & [LM FM] & [LP FP] & SM) Ls Ls' ->. unfold gl_perm, p_permute. rewrite Ls, Ls'. cbv zeta.
  change (8 / 2) with 4. change (4 - 1 + 1) with 4. change (4 - 1) with 3. change (4 * 12) with 48. change ((4 + 1) * 12) with 60. change (60 + 22) with 82.
  change ((4 + 1) * 24 + 22) with 142.
  unfold av5_of. cbn [vc vm vp vs]. rewrite pack_state5 by assumption. cbn [bind].
  rewrite (slice_whole (mat5 (gm g)) 288), (slice_whole (mat5 (gp g)) 288) by (apply mat5_len; assumption). cbn [bind].
  rewrite (c5_first (gc g) 0 LC ltac:(lia) : slice _ 0 24 = _), (c5_first (gc g) 4 LC ltac:(lia) : slice _ 96 24 = _). cbn [bind].
  change (0 * 12) with 0. change (4 * 12) with 48.
  rewrite add5_ok by (rewrite ?firstn_length, ?skipn_length; lia). cbn [bind]. rewrite !p_add12 by assumption.
  assert (L0 : length (p_addF (gc g) 0 s) = 12) by (rewrite p_add_len; lia). assert (L0' : length (p_addF (gc g) 0 s') = 12) by (rewrite p_add_len; lia).
  set (s0 := p_addF (gc g) 0 s) in *. clearbody s0. set (s0' := p_addF (gc g) 0 s') in *. clearbody s0'.
  destruct (full5_ok (gc g) (map fint (c5 (gc g))) (gm g) 12 24 3 s0 s0' L0 L0' (conj LM FM) SM ltac:(lia)) as (E1 & L1 & L1').
  { intros r R. exact (c5_first (gc g) (1 + r) LC ltac:(lia)). }
  rewrite E1. cbn [bind]. clear E1.
  set (s1 := p_fullF (gc g) (colsF 12 (gm g)) 12 12 3 s0) in *. clearbody s1. set (s1' := p_fullF (gc g) (colsF 12 (gm g)) 12 12 3 s0') in *. clearbody s1'.
  rewrite pow5_ok, add5_ok by (rewrite ?map_length, ?firstn_length, ?skipn_length; lia). cbn [bind].
  rewrite !p_add12 by (rewrite map_length; assumption).
  assert (L2 : length (p_addF (gc g) 48 (map pow7 s1)) = 12) by (rewrite p_add_len; rewrite map_length; lia).
  assert (L2' : length (p_addF (gc g) 48 (map pow7 s1')) = 12) by (rewrite p_add_len; rewrite map_length; lia).
  set (s2 := p_addF (gc g) 48 (map pow7 s1)) in *. clearbody s2. set (s2' := p_addF (gc g) 48 (map pow7 s1')) in *. clearbody s2'.
  rewrite mmult5_ok by assumption. cbn [bind].
  assert (L3 : length (p_mixF (colsF 12 (gp g)) s2) = 12) by (rewrite p_mix_len; apply cols_len).
  assert (L3' : length (p_mixF (colsF 12 (gp g)) s2') = 12) by (rewrite p_mix_len; apply cols_len).
  set (s3 := p_mixF (colsF 12 (gp g)) s2) in *. clearbody s3. set (s3' := p_mixF (colsF 12 (gp g)) s2') in *. clearbody s3'.
  destruct (partials5_ok (gc g) (map fint (c5 (gc g))) (gs g) s3 s3' L3 L3' LS) as (E4 & L4 & L4').
  { intros r R. exact (c5_mid (gc g) r LC R). }
  rewrite E4. cbn [bind]. clear E4.
  set (s4 := fold_left (p_partialF (gc g) (gs g) 12 60) (seq 0 22) s3) in *. clearbody s4.
  set (s4' := fold_left (p_partialF (gc g) (gs g) 12 60) (seq 0 22) s3') in *. clearbody s4'.
  destruct (full5_ok (gc g) (map fint (c5 (gc g))) (gm g) 82 142 3 s4 s4' L4 L4' (conj LM FM) SM ltac:(lia)) as (E5 & L5 & L5').
  { intros r R. exact (c5_last (gc g) r LC ltac:(lia)). }
  rewrite E5. cbn [bind]. clear E5.
  set (s5 := p_fullF (gc g) (colsF 12 (gm g)) 12 82 3 s4) in *. clearbody s5. set (s5' := p_fullF (gc g) (colsF 12 (gm g)) 12 82 3 s4') in *. clearbody s5'.
  rewrite pow5_ok, mmult5_ok by (rewrite ?map_length; assumption). reflexivity.
Qed.

(* the two messages interleaved in the 16 inputs, four at a time *)
Definition half (k : nat) (inp : list Fr) : list Fr := firstn 4 (skipn (4 * k) inp) ++ firstn 4 (skipn (4 * k + 8) inp).
Definition halfc (k : nat) (init : list Fr) : list Fr := firstn 4 (skipn (4 * k) init).

Lemma avx512_eq g inp init out : gl_ok g ->
  avx512_hash (av5_of g) inp init out =
  if negb (length inp =? 16) then Err else if negb (length init =? 8) then Err
  else bind (gl_hash g (half 0 inp) (halfc 0 init) 4) (fun a => bind (gl_hash g (half 1 inp) (halfc 1 init) 4) (fun b =>
    take_out Fr (a ++ b) out)).
Proof.
  intros G. unfold avx512_hash.
  destruct (length inp =? 16) eqn:E1; [|reflexivity]. destruct (length init =? 8) eqn:E2; [|reflexivity]. cbn [negb].
  apply Nat.eqb_eq in E1. apply Nat.eqb_eq in E2. rewrite repr_map. cbv zeta.
  set (s := half 0 inp ++ halfc 0 init). set (s' := half 1 inp ++ halfc 1 init).
  assert (Lh : forall k, k < 2 -> length (half k inp) = 8) by (intros k K; unfold half; rewrite app_length, !firstn_length, !skipn_length; lia).
  assert (Lc : forall k, k < 2 -> length (halfc k init) = 4) by (intros k K; unfold halfc; rewrite firstn_length, skipn_length; lia).
  assert (Ls : length s = 12) by (unfold s; rewrite app_length, Lh, Lc by lia; reflexivity).
  assert (Ls' : length s' = 12) by (unfold s'; rewrite app_length, Lh, Lc by lia; reflexivity).
  assert (EZ : map fint (inp ++ init) = map fint ((blk 0 s ++ blk 0 s') ++ (blk 1 s ++ blk 1 s') ++ (blk 2 s ++ blk 2 s'))).
  { f_equal. unfold s, s'. clear - E1 E2. lanes inp 16. lanes init 8. reflexivity. }
  unfold gl_hash. rewrite !Lh, !Lc by lia. cbn [Nat.eqb negb]. fold s. fold s'.
  destruct (gl_perm_ok g s G Ls) as [EP LP]. rewrite EP. destruct (gl_perm_ok g s' G Ls') as [EP' LP']. rewrite EP'. cbn [bind].
  pose proof (avx512_state g s s' _ G Ls Ls' EZ) as ST. clear EZ.
  repeat match goal with
  | H : bind ?x ?f = Ok _ |- context [bind ?x ?h] => let E := fresh "E" in destruct x eqn:E; try discriminate H; cbn [bind] in H; cbn [bind]
  end.
  rewrite ST. cbn [bind]. unfold rep8, st3. rewrite from_repr_fints. cbn [bind]. unfold take_out.
  rewrite (slice_ok (gl_perm g s) 0 4), (slice_ok (gl_perm g s') 0 4) by lia. cbn [bind skipn]. reflexivity.
Qed.
