(* The circuits' transcripts against the verifier's. *)
From Verif Require Import Base GlModel FrField ListAux HashModel HashProof TranscriptProof CircModel CgenModel.
From Coq Require Import String List.
Import ListNotations.
Open Scope nat_scope.

(** ** rows of bits *)

Lemma next_nat w k : w <> 0 ->
  (if S (k mod w) =? w then (S (k / w), 0) else (k / w, S (k mod w))) = (S k / w, S k mod w).
Proof.
  intros W. pose proof (Nat.div_mod k w W) as E. pose proof (Nat.mod_upper_bound k w W) as B.
  destruct (Nat.eqb_spec (S (k mod w)) w) as [Q|Q].
  - rewrite <- (Nat.div_unique (S k) w (S (k / w)) 0), <- (Nat.mod_unique (S k) w (S (k / w)) 0) by lia. reflexivity.
  - rewrite <- (Nat.div_unique (S k) w (k / w) (S (k mod w))), <- (Nat.mod_unique (S k) w (k / w) (S (k mod w))) by lia.
    reflexivity.
Qed.

Lemma bit_stms_ok w ks v : w <> 0 -> forall nbits j k, (forall i, i < nbits -> (k + i) / w < List.length ks) ->
  exists l, bit_stms w ks v nbits j (k / w) (k mod w) = Ok (l, (k + nbits) / w, (k + nbits) mod w) /\
    forall i, i < nbits -> In (GAssign (NIdx v (j + i)) (SBits (nth ((k + i) / w) ks 0) ((k + i) mod w))) l.
Proof.
  intros W. induction nbits as [|nbits IH]; intros j k H; cbn [bit_stms].
  - exists []. rewrite Nat.add_0_r. split; [reflexivity|]. intros i Hi. lia.
  - pose proof (H 0 ltac:(lia)) as H0. rewrite Nat.add_0_r in H0.
    assert (EK : vget ks (k / w) = Ok (nth (k / w) ks 0)).
    { unfold vget. rewrite (nth_error_nth' ks 0 H0). reflexivity. }
    rewrite EK. cbn [bind].
    destruct (IH (S j) (S k)) as (l & El & Hl).
    { intros i Hi. specialize (H (S i) ltac:(lia)). replace (S k + i) with (k + S i) by lia. exact H. }
    pose proof (next_nat w k W) as NX.
    assert (ES : (if S (k mod w) =? w then bit_stms w ks v nbits (S j) (S (k / w)) 0
      else bit_stms w ks v nbits (S j) (k / w) (S (k mod w))) = Ok (l, (S k + nbits) / w, (S k + nbits) mod w)).
    { rewrite <- El. destruct (S (k mod w) =? w); injection NX as <- <-; reflexivity. }
    rewrite ES. cbn [bind].
    exists (GAssign (NIdx v j) (SBits (nth (k / w) ks 0) (k mod w)) :: l).
    replace (k + S nbits) with (S k + nbits) by lia. split; [reflexivity|].
    intros [|i] Hi; [left; rewrite !Nat.add_0_r; reflexivity|right].
    specialize (Hl i ltac:(lia)). replace (j + S i) with (S j + i) by lia. replace (k + S i) with (S k + i) by lia. exact Hl.
Qed.

Lemma row_stms_ok w ks v b : w <> 0 -> forall n i0 k, (forall i, i < n * b -> (k + i) / w < List.length ks) ->
  exists l, row_stms w ks v b n i0 (k / w) (k mod w) = Ok l /\
    forall i j, i < n -> j < b ->
      In (GAssign (NIdx (NIdx v (i0 + i)) j) (SBits (nth ((k + i * b + j) / w) ks 0) ((k + i * b + j) mod w))) l.
Proof.
  intros W. induction n as [|n IH]; intros i0 k H; cbn [row_stms].
  - exists []. split; [reflexivity|]. intros i j Hi. lia.
  - destruct (bit_stms_ok w ks (NIdx v i0) W b 0 k) as (l & El & Hl).
    { intros i Hi. apply H. nia. }
    rewrite El. cbn [bind].
    destruct (IH (S i0) (k + b)) as (r & Er & Hr).
    { intros i Hi. replace (k + b + i) with (k + (b + i)) by lia. apply H. nia. }
    rewrite Er. cbn [bind]. exists (l ++ r). split; [reflexivity|].
    intros [|i] j Hi Hj; apply in_or_app.
    + left. cbn [Nat.mul]. rewrite !Nat.add_0_r. exact (Hl j Hj).
    + right. specialize (Hr i j ltac:(lia) Hj). replace (i0 + S i) with (S i0 + i) by lia.
      replace (k + S i * b + j) with (k + b + i * b + j) by (cbn [Nat.mul]; lia). exact Hr.
Qed.

Lemma map_seq_nth {A} (f : nat -> A) d : forall n l, List.length l = n -> (forall i, i < n -> f i = nth i l d) -> map f (seq 0 n) = l.
Proof.
  intros n l L H. apply (nth_ext _ _ d d); rewrite map_length, seq_length; [congruence|].
  intros i Hi. rewrite (nth_indep _ d (f 0)) by (rewrite map_length, seq_length; exact Hi).
  rewrite map_nth, seq_nth by exact Hi. apply H. exact Hi.
Qed.

Lemma group_bsum w fields n : forall k,
  group w fields k n = bsum (map (fun j => Z.b2z (sbit w fields (k + j))) (seq 0 n)).
Proof.
  induction n as [|n IH]; intros k; cbn [group seq map bsum]; [reflexivity|].
  rewrite Nat.add_0_r, IH, <- seq_shift, map_map. do 3 f_equal. apply map_ext. intros j.
  replace (k + S j) with (S k + j) by lia. reflexivity.
Qed.

Lemma fof_bit b : fint (fof (Z.b2z b)) = Z.b2z b.
Proof. destruct b; vm_compute; reflexivity. Qed.

(** ** the events of a verifier *)

Inductive tev : Type := TPut (es : list (list Fr)) | TField | TPerm (n nbits : nat).

(* the numbers an assignment gives to the signals that a call defines: the challenge's three words, or the
   query positions from their bits *)
Definition reads (val : name -> Z) (o : gop) : list Z :=
  match o with
  | OPut _ _ => []
  | OField v => [val (NIdx v 0); val (NIdx v 1); val (NIdx v 2)]
  | OPerm v n b => map (fun i => bsum (map (fun j => val (NIdx (NIdx v i) j)) (seq 0 b))) (seq 0 n)
  end.

Section GL.
Variable perm : list Fr -> list Fr -> list Fr.
Hypothesis perm_len : forall i s, List.length (perm i s) = 12.

Definition tstep (e : tev) (t : transcript) : res (list Z * transcript) :=
  match e with
  | TPut es => bind (put perm t es) (fun t => Ok ([], t))
  | TField => bind (get_field perm t) (fun r => let '(a, b, c, t) := r in Ok ([fint a; fint b; fint c], t))
  | TPerm n b => get_permutations perm t n b
  end.
Fixpoint trun (h : list tev) (t : transcript) : res (list (list Z) * transcript) :=
  match h with
  | [] => Ok ([], t)
  | e :: h => bind (tstep e t) (fun ot => bind (trun h (snd ot)) (fun rt => Ok (fst ot :: fst rt, snd rt)))
  end.

(* the calls of the generator and of the verifier correspond, the named signals having the absorbed values *)
Definition fed (val : sgn -> Fr) (o : gop) (e : tev) : Prop :=
  match o, e with
  | OPut a l, TPut es => concat es = map (fun n => val (SName n)) (put_names a l)
  | OField _, TField => True
  | OPerm _ n b, TPerm n' b' => n = n' /\ b = b' /\ b <= 64
  | _, _ => False
  end.

Variable val : sgn -> Fr.
Hypothesis val0 : val SZero = f0.
Notation Q := (stm_gl perm val).

Definition gsim (g : ggl) (t : transcript) : Prop :=
  tr_state t = map val (gg_state g) /\ tr_pending t = map val (gg_pending g) /\ tr_out t = map val (gg_out g) /\ wf t.

Lemma new_sim : gsim gg_new tr_new.
Proof.
  unfold gsim, gg_new. cbn [gg_state gg_pending gg_out map]. rewrite val0. repeat split.
  cbn. lia.
Qed.

Lemma get_mono g s g' P : gg_get1 g = Ok (s, g') -> Forall P (gg_code g') -> Forall P (gg_code g).
Proof.
  unfold gg_get1. destruct (gg_out g) as [|x l] eqn:E; intros H F.
  - cbn [gg_flush gg_out seq map] in H. pose proof (f_equal (fun z => match z with Ok (_, g) => gg_code g | _ => [] end) H) as C.
    cbn [gg_code] in C. rewrite <- C in F. apply Forall_app in F. apply F.
  - rewrite E in H. pose proof (f_equal (fun z => match z with Ok (_, g) => gg_code g | _ => [] end) H) as C.
    cbn [gg_code] in C. rewrite <- C in F. exact F.
Qed.

Lemma add_mono g a P : Forall P (gg_code (gg_add g a)) -> Forall P (gg_code g).
Proof.
  unfold gg_add. cbn [gg_pending]. destruct (_ =? 8); cbn [gg_flush gg_code]; [|auto].
  intros F. apply Forall_app in F. apply F.
Qed.

Lemma put_mono ns P : forall g, Forall P (gg_code (fold_left gg_add ns g)) -> Forall P (gg_code g).
Proof. induction ns as [|n ns IH]; intros g F; cbn [fold_left] in F; [exact F|]. apply (add_mono g n). apply IH. exact F. Qed.

Lemma emit_mono g l P : Forall P (gg_code (gg_emit g l)) -> Forall P (gg_code g) /\ Forall P l.
Proof. cbn [gg_emit gg_code]. apply Forall_app. Qed.

Lemma n2bs_mono n P : forall g ks g', gg_n2bs n g = Ok (ks, g') -> Forall P (gg_code g') -> Forall P (gg_code g).
Proof.
  induction n as [|n IH]; intros g ks g' H F; cbn [gg_n2bs] in H.
  - assert (g = g') by congruence. subst. exact F.
  - destruct (gg_get1 g) as [[s g1]| | |] eqn:E; try discriminate H. cbn [bind] in H.
    destruct (gg_n2bs n _) as [[ks1 g2]| | |] eqn:E2 in H; try discriminate H. cbn [bind fst snd] in H.
    assert (g2 = g') by congruence. subst g2. apply (get_mono g s g1 P E).
    apply IH in E2; [|exact F]. cbn [gg_code] in E2. apply Forall_app in E2. apply E2.
Qed.

(** *** one value drawn *)
Lemma flush_sim g t : List.length (tr_state t) = 4 -> List.length (tr_pending t) <= 8 ->
  tr_state t = map val (gg_state g) -> tr_pending t = map val (gg_pending g) ->
  Forall Q (gg_code (gg_flush g)) -> gsim (gg_flush g) (upd perm t).
Proof.
  intros L4 L8 Es Ep F. cbn [gg_flush gg_code] in F. apply Forall_app in F. destruct F as [_ F].
  pose proof (Forall_inv F) as HQ. cbn [stm_gl] in HQ.
  assert (EI : map val (gg_pending g ++ repeat SZero (8 - List.length (gg_pending g))) = pad_to 8 (tr_pending t)).
  { rewrite map_app. unfold pad_to. rewrite Ep, map_length. f_equal.
    generalize (8 - List.length (gg_pending g)). induction n; cbn [repeat map]; [reflexivity|]. rewrite IHn, val0. reflexivity. }
  rewrite EI, <- Es in HQ.
  assert (EO : map val (map (SHash (gg_h g)) (seq 0 12)) = perm (pad_to 8 (tr_pending t)) (tr_state t)).
  { rewrite map_map. apply (map_seq_nth _ f0); [apply perm_len|exact HQ]. }
  unfold gsim, upd, gg_flush. cbn [tr_state tr_pending tr_out gg_state gg_pending gg_out map].
  split; [|split; [reflexivity|split; [symmetry; exact EO|]]].
  - rewrite <- EO. cbn [seq map firstn]. reflexivity.
  - split; cbn [tr_state tr_pending List.length]; [rewrite firstn_length, perm_len; reflexivity|lia].
Qed.

Lemma get_sim g t s g' : gsim g t -> gg_get1 g = Ok (s, g') -> Forall Q (gg_code g') ->
  exists t', get_fields1 perm t = Ok (val s, t') /\ gsim g' t'.
Proof.
  intros (Es & Ep & Eo & W) H F. destruct (get_eq perm perm_len t W) as [EG WG].
  exists (snd (getp perm t)). rewrite EG.
  assert (K : val s = fst (getp perm t) /\ gsim g' (snd (getp perm t))).
  2:{ destruct K as [-> K]. split; [destruct (getp perm t); reflexivity|exact K]. }
  unfold getp. unfold gg_get1 in H. destruct (gg_out g) as [|x l] eqn:E.
  - cbn [map] in Eo. rewrite Eo. cbn [gg_flush gg_out seq map] in H.
    assert (F1 : Forall Q (gg_code (gg_flush g))).
    { pose proof (f_equal (fun z => match z with Ok (_, g) => gg_code g | _ => [] end) H) as C.
      cbn [gg_code] in C. rewrite <- C in F. exact F. }
    destruct W as [W1 W2]. pose proof (flush_sim g t W1 ltac:(lia) Es Ep F1) as (S1 & S2 & S3 & S4).
    injection H as Hs Hg. subst s g'.
    cbn [fst snd]. rewrite S3. cbn [gg_flush gg_out seq map hd tl]. split; [reflexivity|].
    split; [exact S1|]. split; [exact S2|]. split; [reflexivity|]. exact S4.
  - rewrite Eo. cbn [map]. rewrite E in H. cbn [fst snd]. rewrite Eo. cbn [map hd tl].
    assert (s = x) as -> by congruence. assert (g' = mkGgl (gg_state g) (gg_pending g) l (gg_h g) (gg_n2b g) (gg_code g)) as -> by congruence.
    split; [reflexivity|]. split; [exact Es|]. split; [exact Ep|]. split; [reflexivity|exact W].
Qed.

Lemma add_sim g t a : gsim g t -> Forall Q (gg_code (gg_add g a)) -> gsim (gg_add g a) (addp perm t (val (SName a))).
Proof.
  intros (Es & Ep & Eo & W1 & W2) F. unfold gg_add, addp in *. cbn [gg_pending tr_pending] in *.
  rewrite app_length in F. rewrite !app_length. rewrite Ep, map_length in *. cbn [List.length] in *.
  destruct (Nat.eqb_spec (List.length (gg_pending g) + 1) 8).
  - apply flush_sim; cbn [tr_state tr_pending gg_state gg_pending]; [exact W1| |exact Es| |exact F].
    + rewrite app_length, map_length. cbn [List.length]. lia.
    + rewrite map_app. reflexivity.
  - split; [exact Es|]. split; [cbn [tr_pending gg_pending]; rewrite map_app; reflexivity|]. split; [reflexivity|].
    split; [exact W1|]. cbn [tr_pending]. rewrite app_length, map_length. cbn [List.length]. lia.
Qed.

Lemma put_sim ns : forall g t, gsim g t -> Forall Q (gg_code (fold_left gg_add ns g)) ->
  exists t', foldM (add_1 perm) (map (fun n => val (SName n)) ns) t = Ok t' /\ gsim (fold_left gg_add ns g) t'.
Proof.
  induction ns as [|n ns IH]; intros g t S F; cbn [fold_left map foldM] in *.
  - exists t. split; [reflexivity|exact S].
  - destruct S as (Es & Ep & Eo & W). destruct (add_eq perm perm_len t (val (SName n)) W) as [EA WA]. rewrite EA. cbn [bind].
    apply IH; [|exact F]. apply add_sim; [|exact (put_mono ns _ _ F)]. split; [exact Es|]. split; [exact Ep|]. split; [exact Eo|exact W].
Qed.

Lemma field_sim g t v g' : gsim g t -> gg_field g v = Ok g' -> Forall Q (gg_code g') ->
  Forall Q (gg_code g) /\
  exists t', get_field perm t = Ok (val (SName (NIdx v 0)), val (SName (NIdx v 1)), val (SName (NIdx v 2)), t') /\ gsim g' t'.
Proof.
  intros S H F. unfold gg_field in H.
  destruct (gg_get1 g) as [[s0 g0]| | |] eqn:E0; try discriminate H. cbn [bind] in H.
  destruct (gg_get1 (gg_emit g0 _)) as [[s1 g1]| | |] eqn:E1; try discriminate H. cbn [bind] in H.
  destruct (gg_get1 (gg_emit g1 _)) as [[s2 g2]| | |] eqn:E2; try discriminate H. cbn [bind] in H.
  assert (g' = gg_emit g2 [GAssign (NIdx v 2) s2]) as -> by congruence. clear H.
  destruct (emit_mono _ _ _ F) as [F2 A2]. pose proof (get_mono _ _ _ _ E2 F2) as F1'.
  destruct (emit_mono _ _ _ F1') as [F1 A1]. pose proof (get_mono _ _ _ _ E1 F1) as F0'.
  destruct (emit_mono _ _ _ F0') as [F0 A0]. split; [exact (get_mono _ _ _ _ E0 F0)|].
  apply Forall_inv in A0. apply Forall_inv in A1. apply Forall_inv in A2. cbn [stm_gl] in A0, A1, A2.
  destruct (get_sim g t s0 g0 S E0 F0) as (t0 & G0 & S0).
  destruct (get_sim (gg_emit g0 [GAssign (NIdx v 0) s0]) t0 s1 g1 S0 E1 F1) as (t1 & G1 & S1).
  destruct (get_sim (gg_emit g1 [GAssign (NIdx v 1) s1]) t1 s2 g2 S1 E2 F2) as (t2 & G2 & S2).
  exists t2. unfold get_field. rewrite G0. cbn [unwrap bind]. rewrite G1. cbn [unwrap bind]. rewrite G2. cbn [unwrap bind].
  rewrite A0, A1, A2. split; [reflexivity|exact S2].
Qed.

Lemma n2bs_sim n : forall g t ks g', gsim g t -> gg_n2bs n g = Ok (ks, g') -> Forall Q (gg_code g') ->
  exists fs t', get_many perm n t = Ok (fs, t') /\ gsim g' t' /\ List.length ks = n /\ List.length fs = n /\
    forall c i, c < n -> i < 64 ->
      val (SBits (nth c ks 0) i) = fof (Z.b2z (Z.testbit (fint (nth c fs f0)) (Z.of_nat i))).
Proof.
  induction n as [|n IH]; intros g t ks g' S H F; cbn [gg_n2bs] in H.
  - exists [], t. assert (ks = []) as -> by congruence. assert (g = g') as <- by congruence.
    split; [reflexivity|]. split; [exact S|]. split; [reflexivity|]. split; [reflexivity|]. intros c i Hc. lia.
  - destruct (gg_get1 g) as [[s g1]| | |] eqn:E; try discriminate H. cbn [bind] in H.
    destruct (gg_n2bs n _) as [[ks1 g2]| | |] eqn:E2 in H; try discriminate H. cbn [bind fst snd] in H.
    assert (g2 = g') by congruence. subst g2. assert (ks = gg_n2b g1 :: ks1) as -> by congruence. clear H.
    pose proof (n2bs_mono _ _ _ _ _ E2 F) as F1. cbn [gg_code] in F1. apply Forall_app in F1. destruct F1 as [F1 A1].
    apply Forall_inv in A1. cbn [stm_gl] in A1.
    destruct (get_sim g t s g1 S E F1) as (t1 & G1 & S1).
    destruct (IH (mkGgl (gg_state g1) (gg_pending g1) (gg_out g1) (gg_h g1) (Datatypes.S (gg_n2b g1)) (gg_code g1 ++ [GBits (gg_n2b g1) s])) t1 ks1 g' S1 E2 F) as (fs & t' & G & S' & L1 & L2 & B).
    exists (val s :: fs), t'. cbn [get_many]. rewrite G1. cbn [bind]. rewrite G. cbn [bind].
    split; [reflexivity|]. split; [exact S'|]. cbn [List.length]. split; [congruence|]. split; [congruence|].
    intros [|c] i Hc Hi; cbn [nth]; [exact (A1 i Hi)|]. apply B; [lia|exact Hi].
Qed.

Lemma perm_sim g t v n b g' : b <= 64 -> gsim g t -> gg_perm g v n b = Ok g' -> Forall Q (gg_code g') ->
  Forall Q (gg_code g) /\
  exists t', get_permutations perm t n b = Ok (reads (fun x => fint (val (SName x))) (OPerm v n b), t') /\ gsim g' t'.
Proof.
  intros Hb S H F. unfold gg_perm in H. unfold get_permutations.
  destruct (Nat.eqb_spec (n * b) 0) as [Z0|Z0]; [discriminate H|].
  set (m := (n * b - 1) / 63 + 1) in *.
  destruct (gg_n2bs m g) as [[ks g1]| | |] eqn:E; try discriminate H. cbn [bind fst snd] in H.
  destruct (row_stms 63 ks v b n 0 0 0) as [l| | |] eqn:ER; try discriminate H. cbn [bind] in H.
  assert (g' = gg_emit g1 l) as -> by congruence. clear H.
  destruct (emit_mono _ _ _ F) as [F1 A]. split; [exact (n2bs_mono _ _ _ _ _ E F1)|].
  destruct (n2bs_sim m g t ks g1 S E F1) as (fs & t' & G & S' & L1 & L2 & B). rewrite G. cbn [bind].
  assert (K63 : 63 <> 0) by discriminate.
  assert (DB : forall i, i < n * b -> i / 63 < m).
  { intros i Hi. unfold m. assert (i / 63 <= (n * b - 1) / 63) by (apply Nat.div_le_mono; lia).
    generalize dependent (i / 63). generalize ((n * b - 1) / 63). clear. intros. lia. }
  assert (HB : forall i, i < n * b -> (0 + i) / 63 < List.length (map fint fs)).
  { intros i Hi. rewrite map_length, L2. cbn [Nat.add]. apply DB. exact Hi. }
  pose proof (groups_eq 63 K63 (map fint fs) b Hb n 0 HB) as EG.
  rewrite Nat.div_0_l, Nat.mod_0_l in EG by exact K63.
  change (Z.of_nat 63) with 63%Z in EG. change (Z.of_nat 0) with 0%Z in EG. rewrite EG. cbn [bind].
  destruct (row_stms_ok 63 ks v b K63 n 0 0) as (l' & El & Hl).
  { intros i Hi. rewrite L1. cbn [Nat.add]. apply DB. exact Hi. }
  rewrite Nat.div_0_l, Nat.mod_0_l in El by exact K63. assert (l' = l) by congruence. subst l'. clear El.
  exists t'. split; [|exact S']. f_equal. f_equal. cbn [reads]. apply map_ext_in. intros i Hi. apply in_seq in Hi.
  rewrite group_bsum. f_equal. apply map_ext_in. intros j Hj. apply in_seq in Hj.
  specialize (Hl i j ltac:(lia) ltac:(lia)). rewrite Forall_forall in A. pose proof (A _ Hl) as HA. cbn [stm_gl] in HA.
  cbn [Nat.add] in *. assert (IJ : i * b + j < n * b) by nia.
  rewrite HA, B, fof_bit; [|apply DB; exact IJ|].
  - unfold sbit. do 2 f_equal. rewrite (nth_indep _ 0%Z (fint f0)); [apply map_nth|]. rewrite map_length, L2. apply DB. exact IJ.
  - pose proof (Nat.mod_upper_bound (i * b + j) 63 K63). lia.
Qed.

Lemma step_sim g t o e g' : fed val o e -> gsim g t -> gg_step g o = Ok g' -> Forall Q (gg_code g') ->
  Forall Q (gg_code g) /\ exists t', tstep e t = Ok (reads (fun x => fint (val (SName x))) o, t') /\ gsim g' t'.
Proof.
  intros HF S H F. destruct o as [a l|v|v n b]; destruct e as [es| |n' b']; cbn [fed] in HF; try contradiction; cbn [gg_step tstep] in *.
  - assert (g' = gg_put g a l) as -> by congruence. unfold gg_put in *.
    split; [exact (put_mono _ _ _ F)|]. destruct (put_sim _ g t S F) as (t' & E & S').
    exists t'. split; [|exact S'].
    assert (EP : put perm t es = Ok t').
    { destruct S as (_ & _ & _ & W). rewrite put_eq by assumption. rewrite HF. rewrite <- E. symmetry. apply add_list; assumption. }
    rewrite EP. reflexivity.
  - destruct (field_sim g t v g' S H F) as [F0 (t' & E & S')]. split; [exact F0|]. exists t'. rewrite E. split; [reflexivity|exact S'].
  - destruct HF as (<- & <- & Hb). exact (perm_sim g t v n b g' Hb S H F).
Qed.

(* monotonicity without a simulation *)
Lemma step_mono g o g' P : gg_step g o = Ok g' -> Forall P (gg_code g') -> Forall P (gg_code g).
Proof.
  destruct o as [a l|v|v n b]; cbn [gg_step]; intros H F.
  - assert (g' = gg_put g a l) as -> by congruence. exact (put_mono _ _ _ F).
  - unfold gg_field in H.
    destruct (gg_get1 g) as [[s0 g0]| | |] eqn:E0; try discriminate H. cbn [bind] in H.
    destruct (gg_get1 (gg_emit g0 _)) as [[s1 g1]| | |] eqn:E1; try discriminate H. cbn [bind] in H.
    destruct (gg_get1 (gg_emit g1 _)) as [[s2 g2]| | |] eqn:E2; try discriminate H. cbn [bind] in H.
    assert (g' = gg_emit g2 [GAssign (NIdx v 2) s2]) as -> by congruence.
    apply emit_mono in F. destruct F as [F _]. apply (get_mono _ _ _ _ E2) in F. apply emit_mono in F. destruct F as [F _].
    apply (get_mono _ _ _ _ E1) in F. apply emit_mono in F. destruct F as [F _]. exact (get_mono _ _ _ _ E0 F).
  - unfold gg_perm in H. destruct (n * b =? 0); [discriminate H|].
    destruct (gg_n2bs _ g) as [[ks g1]| | |] eqn:E; try discriminate H. cbn [bind fst snd] in H.
    destruct (row_stms _ _ _ _ _ _ _ _) as [l| | |]; try discriminate H. cbn [bind] in H.
    assert (g' = gg_emit g1 l) as -> by congruence. apply emit_mono in F. destruct F as [F _]. exact (n2bs_mono _ _ _ _ _ E F).
Qed.

Lemma run_mono h P : forall g g', gg_run h g = Ok g' -> Forall P (gg_code g') -> Forall P (gg_code g).
Proof.
  induction h as [|o h IH]; intros g g' H F; unfold gg_run in H; cbn [foldM] in H.
  - assert (g = g') by congruence. subst. exact F.
  - destruct (gg_step g o) as [g1| | |] eqn:E; try discriminate H. cbn [bind] in H.
    apply (step_mono _ _ _ _ E). exact (IH g1 g' H F).
Qed.

Theorem gl_transcript h evs : forall g t g', Forall2 (fed val) h evs -> gsim g t -> gg_run h g = Ok g' -> Forall Q (gg_code g') ->
  exists t', trun evs t = Ok (map (reads (fun x => fint (val (SName x)))) h, t').
Proof.
  revert evs. induction h as [|o h IH]; intros evs g t g' HF S H F; inversion HF; subst; cbn [trun map].
  - exists t. reflexivity.
  - unfold gg_run in H. cbn [foldM] in H. destruct (gg_step g o) as [g1| | |] eqn:E; try discriminate H. cbn [bind] in H.
    pose proof (run_mono h Q g1 g' H F) as F1.
    destruct (step_sim g t o y g1 H2 S E F1) as [_ (t1 & E1 & S1)]. rewrite E1. cbn [bind fst snd].
    destruct (IH l' g1 t1 g' H4 S1 H F) as (t' & E2). rewrite E2. cbn [bind fst snd]. exists t'. reflexivity.
Qed.
End GL.

(* the generator fails on a schedule only where the verifier does *)
Lemma gg_get_total g : exists s g', gg_get1 g = Ok (s, g').
Proof.
  unfold gg_get1. destruct (gg_out g) as [|x l] eqn:E; [cbn [gg_flush gg_out seq map]; eauto|]. rewrite E. eauto.
Qed.
Lemma gg_n2bs_total n : forall g, exists ks g', gg_n2bs n g = Ok (ks, g') /\ List.length ks = n.
Proof.
  induction n as [|n IH]; intros g; cbn [gg_n2bs]; [exists [], g; auto|].
  destruct (gg_get_total g) as (s & g1 & E). rewrite E. cbn [bind].
  destruct (IH (mkGgl (gg_state g1) (gg_pending g1) (gg_out g1) (gg_h g1) (S (gg_n2b g1)) (gg_code g1 ++ [GBits (gg_n2b g1) s]))) as (ks & g2 & E2 & L).
  rewrite E2. cbn [bind fst snd]. eexists. eexists. split; [reflexivity|]. cbn [List.length]. congruence.
Qed.
Lemma gg_step_total g o : match o with OPerm _ n b => n * b <> 0 | _ => True end -> exists g', gg_step g o = Ok g'.
Proof.
  destruct o as [a l|v|v n b]; intros H; cbn [gg_step]; [eauto| |].
  - unfold gg_field. destruct (gg_get_total g) as (s & g1 & E). rewrite E. cbn [bind].
    destruct (gg_get_total (gg_emit g1 [GAssign (NIdx v 0) s])) as (s1 & g2 & E1). rewrite E1. cbn [bind].
    destruct (gg_get_total (gg_emit g2 [GAssign (NIdx v 1) s1])) as (s2 & g3 & E2). rewrite E2. cbn [bind]. eauto.
  - unfold gg_perm. destruct (Nat.eqb_spec (n * b) 0); [contradiction|]. set (m := (n * b - 1) / 63 + 1).
    destruct (gg_n2bs_total m g) as (ks & g1 & E & L). rewrite E. cbn [bind fst snd].
    assert (K63 : 63 <> 0) by discriminate.
    destruct (row_stms_ok 63 ks v b K63 n 0 0) as (l' & El & _).
    { intros i Hi. rewrite L. cbn [Nat.add]. unfold m. assert (i / 63 <= (n * b - 1) / 63) by (apply Nat.div_le_mono; lia).
      generalize dependent (i / 63). generalize ((n * b - 1) / 63). clear. intros. lia. }
    rewrite Nat.div_0_l, Nat.mod_0_l in El by exact K63. rewrite El. cbn [bind]. eauto.
Qed.
Theorem gg_total h : Forall (fun o => match o with OPerm _ n b => n * b <> 0 | _ => True end) h -> forall g, exists g', gg_run h g = Ok g'.
Proof.
  induction 1 as [|o h Ho H IH]; intros g; unfold gg_run; cbn [foldM]; [eauto|].
  destruct (gg_step_total g o Ho) as [g1 E]. rewrite E. cbn [bind]. apply IH.
Qed.
