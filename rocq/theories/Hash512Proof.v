(* The AVX-512 linear hash and Merkle tree against the scalar ones. *)
From Verif Require Import Base ListAux FrField HashModel HashProof MerkleProof AvxModel Hash512Model.
Open Scope nat_scope.

Lemma foldM_app' {A B} (f : B -> A -> res B) l l' b : foldM f (l ++ l') b = bind (foldM f l b) (fun x => foldM f l' x).
Proof. apply foldM_app. Qed.
Lemma slice_at {A} (a b c : list A) n m : length a = n -> length b = m -> slice (a ++ b ++ c) n m = Ok b.
Proof. intros <- <-. apply slice_mid. Qed.
Lemma mid_half {A} (a b : list A) : length a = length b -> length (a ++ b) / 2 = length a.
Proof. intros H. rewrite app_length, <- H. replace (length a + length a) with (length a * 2) by lia. apply Nat.div_mul. discriminate. Qed.

Lemma firstn_add' {A} a b (l : list A) : firstn (a + b) l = firstn a l ++ firstn b (skipn a l).
Proof. revert l. induction a as [|a IH]; intros [|x l]; cbn; try reflexivity; [rewrite firstn_nil; reflexivity|rewrite IH; reflexivity]. Qed.
Section Hash.
Variable h512 : list Fr -> list Fr -> nat -> res (list Fr).
Variable perm : list Fr -> list Fr -> list Fr.
Hypothesis perm_len : forall i s, length (perm i s) = 12.
Hypothesis h512_pair : forall a0 a1 b0 b1 ca cb,
  length a0 = 4 -> length a1 = 4 -> length b0 = 4 -> length b1 = 4 -> length ca = 4 -> length cb = 4 ->
  h512 (a0 ++ b0 ++ a1 ++ b1) (ca ++ cb) 8 = Ok (firstn 4 (perm (a0 ++ a1) ca) ++ firstn 4 (perm (b0 ++ b1) cb)).

Notation P4 := (P4 perm).
Notation H1 := (H1 perm).
Notation lin := (lin perm).
Notation chain := (chain perm).
Notation four := (fun d : list Fr => length d = 4).

Lemma P4l b st : length (P4 b st) = 4. Proof. apply (P4_len perm perm_len). Qed.

(* two full blocks *)
Lemma h512_blocks a b ca cb : length a = 8 -> length b = 8 -> length ca = 4 -> length cb = 4 ->
  h512 (firstn 4 a ++ firstn 4 b ++ skipn 4 a ++ skipn 4 b) (ca ++ cb) 8 = Ok (P4 a ca ++ P4 b cb).
Proof.
  intros A B CA CB. rewrite h512_pair by (rewrite ?firstn_length, ?skipn_length; lia). rewrite !firstn_skipn. reflexivity.
Qed.
Lemma copy8_ok a b ca cb : copy8 (P4 a ca ++ P4 b cb) = Ok (P4 a ca ++ P4 b cb).
Proof. unfold copy8. rewrite app_length, !P4l. reflexivity. Qed.

Lemma abs_short f1 l : forall st buf c, length buf + length l < 8 -> foldM (absorb512 h512 f1) l (st, buf, c) = Ok (st, buf ++ l, c).
Proof.
  induction l as [|x l IH]; intros st buf c H; cbn [foldM]; [rewrite app_nil_r; reflexivity|].
  cbn [length] in H. unfold absorb512 at 1. rewrite app_length. cbn [length].
  destruct (Nat.eqb_spec (length buf + 1) 8); [lia|]. cbn [bind].
  rewrite IH by (rewrite app_length; cbn; lia). rewrite <- app_assoc. reflexivity.
Qed.
Lemma abs_block pre b rest l : forall ca cb buf c, length pre = c * 8 -> length b = 8 -> length ca = 4 -> length cb = 4 ->
  length buf < 8 -> length buf + length l = 8 ->
  foldM (absorb512 h512 (pre ++ b ++ rest)) l (ca ++ cb, buf, c) = Ok (P4 (buf ++ l) ca ++ P4 b cb, [], c + 1).
Proof.
  induction l as [|x l IH]; intros ca cb buf c HP HB HA HC Hb H; cbn [length] in H; [lia|]. cbn [foldM].
  unfold absorb512 at 1. rewrite app_length. cbn [length].
  destruct (Nat.eqb_spec (length buf + 1) 8) as [E|E].
  - assert (l = []) as -> by (destruct l; cbn in H; [reflexivity|lia]). cbv zeta.
    assert (S1 : slice (pre ++ b ++ rest) (c * 8) 4 = Ok (firstn 4 b)).
    { replace (b ++ rest) with (firstn 4 b ++ (skipn 4 b ++ rest)) by (rewrite app_assoc, firstn_skipn; reflexivity).
      apply slice_at; [exact HP|rewrite firstn_length; lia]. }
    assert (S2 : slice (pre ++ b ++ rest) (c * 8 + 4) 4 = Ok (skipn 4 b)).
    { replace (pre ++ b ++ rest) with ((pre ++ firstn 4 b) ++ skipn 4 b ++ rest).
      - apply slice_at; [rewrite app_length, firstn_length; lia|rewrite skipn_length; lia].
      - rewrite <- app_assoc. f_equal. rewrite app_assoc, firstn_skipn. reflexivity. }
    rewrite S1. cbn [bind]. rewrite S2. cbn [bind]. rewrite <- !app_assoc.
    rewrite h512_blocks by (try assumption; rewrite app_length; cbn [length]; lia).
    cbn [unwrap bind]. rewrite copy8_ok. reflexivity.
  - cbn [bind]. rewrite IH; try assumption; [|rewrite app_length; cbn; lia|rewrite app_length; cbn; lia].
    rewrite <- app_assoc. reflexivity.
Qed.

(* interleaving of the padded last blocks *)
Lemma finish_pair pre a b c ca cb : length pre = c * 8 -> a <> [] -> length a < 8 -> length b = length a -> length ca = 4 -> length cb = 4 ->
  finish512 h512 (pre ++ b) (ca ++ cb, a, c) = Ok (P4 (pad_to 8 a) ca ++ P4 (pad_to 8 b) cb).
Proof.
  intros HP NA LA LB HA HC. unfold finish512. destruct a as [|x a]; [congruence|]. set (a' := x :: a) in *. clearbody a'.
  rewrite app_length. replace (c * 8 <=? length pre + length b) with true by (symmetry; apply Nat.leb_le; lia). cbv zeta.
  rewrite <- HP, (skipn_app_exact pre b (length pre) eq_refl).
  assert (LP : length (pad_to 8 a') = 8) by (apply pad_len; lia). assert (LQ : length (pad_to 8 b) = 8) by (apply pad_len; lia).
  assert (E : pad_to 16 (pad_to 8 a' ++ b) = pad_to 8 a' ++ pad_to 8 b).
  { unfold pad_to at 1. rewrite app_length, LP, <- app_assoc. reflexivity. }
  rewrite E. set (A := pad_to 8 a') in *. set (B := pad_to 8 b) in *. clearbody A B.
  assert (E2 : firstn 8 (firstn 4 (A ++ B) ++ skipn 8 (A ++ B)) ++ firstn 4 (skipn 4 (A ++ B)) ++ skipn 8 (firstn 4 (A ++ B) ++ skipn 8 (A ++ B))
    = firstn 4 A ++ firstn 4 B ++ skipn 4 A ++ skipn 4 B).
  { do 8 (destruct A as [|? A]; [discriminate LP|]). destruct A; [|discriminate LP].
    do 8 (destruct B as [|? B]; [discriminate LQ|]). destruct B; [|discriminate LQ]. reflexivity. }
  rewrite E2, h512_blocks by assumption. cbn [unwrap bind]. apply copy8_ok.
Qed.

Lemma abs_all a : forall b pre c ca cb, length a = length b -> length pre = c * 8 -> length ca = 4 -> length cb = 4 ->
  bind (foldM (absorb512 h512 (pre ++ b)) a (ca ++ cb, [], c)) (finish512 h512 (pre ++ b))
  = Ok (chain (blocks8 a) ca ++ chain (blocks8 b) cb).
Proof.
  assert (K8 : 8 <> 0) by discriminate.
  induction a as [a IH] using (well_founded_induction (Wf_nat.well_founded_ltof _ (@length Fr))).
  intros b pre c ca cb LB HP HA HC.
  destruct a as [|x a0]; [destruct b; [|discriminate LB]; reflexivity|]. set (a := x :: a0) in *.
  assert (NA : a <> []) by discriminate. clearbody a. assert (NB : b <> []) by (destruct b; [destruct a; [congruence|discriminate LB]|discriminate]).
  unfold blocks8. rewrite (chunks_step 8 a), (chunks_step 8 b) by auto. cbn [map HashProof.chain].
  destruct (Nat.le_gt_cases 8 (length a)) as [H|H].
  - assert (EF : pre ++ b = pre ++ firstn 8 b ++ skipn 8 b) by (rewrite firstn_skipn; reflexivity).
    assert (EB : forall buf c0 st0, buf = @nil Fr -> c0 = c -> st0 = ca ++ cb ->
      foldM (absorb512 h512 (pre ++ b)) (firstn 8 a) (st0, buf, c0) = Ok (P4 (firstn 8 a) ca ++ P4 (firstn 8 b) cb, [], c + 1)).
    { intros ? ? ? -> -> ->. rewrite EF.
      rewrite abs_block; [reflexivity|assumption|rewrite firstn_length; lia|assumption|assumption|cbn; lia|rewrite firstn_length; cbn [length]; lia]. }
    rewrite !pad_full by (rewrite firstn_length; lia).
    assert (EF2 : pre ++ b = (pre ++ firstn 8 b) ++ skipn 8 b) by (rewrite <- app_assoc; exact EF).
    etransitivity; [|apply (IH (skipn 8 a)) with (pre := pre ++ firstn 8 b) (c := c + 1);
      [unfold Wf_nat.ltof; rewrite skipn_length; lia|rewrite !skipn_length; lia|rewrite app_length, firstn_length; lia|apply P4l|apply P4l]].
    rewrite <- EF2. specialize (EB [] c _ eq_refl eq_refl eq_refl).
    set (F := pre ++ b) in *. clearbody F. rewrite <- (firstn_skipn 8 a) at 1. rewrite foldM_app, EB. reflexivity.
  - rewrite abs_short by (cbn; lia). cbn [bind app].
    rewrite finish_pair by (try assumption; lia).
    rewrite !firstn_all2, !skipn_all2 by lia. reflexivity.
Qed.

Lemma lin512_1_eq a b : length a = length b -> lin512_1 h512 (a ++ b) = Ok (H1 a ++ H1 b).
Proof.
  intros L. unfold lin512_1. rewrite (mid_half a b L), (firstn_app_exact a b), (skipn_app_exact a b) by reflexivity.
  unfold HashProof.H1. rewrite <- L. destruct (Nat.leb_spec (length a) 4) as [H|H].
  - unfold short512. rewrite <- L. apply Nat.leb_le in H. rewrite H. reflexivity.
  - exact (abs_all a b [] 0 zero4 zero4 L eq_refl eq_refl eq_refl).
Qed.

Lemma div4 n : (n + 3) / 4 = div_ceil n 4.
Proof.
  unfold div_ceil. pose proof (Nat.div_mod n 4 ltac:(discriminate)) as D. pose proof (Nat.mod_upper_bound n 4 ltac:(discriminate)) as U.
  destruct (Nat.eqb_spec (n mod 4) 0) as [E|E].
  - symmetry. apply (Nat.div_unique _ 4 _ 3); lia.
  - symmetry. apply (Nat.div_unique _ 4 _ (n mod 4 - 1)); lia.
Qed.

(* chunks of two lists of one length *)
Lemma chunks_pair k (a : list Fr) : k <> 0 -> forall b, length a = length b ->
  mapM (fun c => unwrap (lin512_1 h512 (fst c ++ snd c))) (combine (chunks k a) (chunks k b))
  = Ok (map2 (fun x y => x ++ y) (map H1 (chunks k a)) (map H1 (chunks k b))).
Proof.
  intros K. induction a as [a IH] using (well_founded_induction (Wf_nat.well_founded_ltof _ (@length Fr))).
  intros b L. destruct a as [|x a0]; [destruct b; [|discriminate L]; reflexivity|]. set (a := x :: a0) in *.
  assert (NA : a <> []) by discriminate. assert (LA : 0 < length a) by (unfold a; cbn [length]; lia).
  clearbody a. assert (NB : b <> []) by (destruct b; [cbn [length] in L; lia|discriminate]).
  rewrite (chunks_step k a), (chunks_step k b) by auto. cbn [combine mapM map map2 fst snd].
  rewrite lin512_1_eq by (rewrite !firstn_length; lia). cbn [unwrap bind].
  rewrite IH by (try (unfold Wf_nat.ltof; rewrite skipn_length); rewrite ?skipn_length; lia). reflexivity.
Qed.
Lemma unzip4 (xs : list (list Fr)) : forall ys, length xs = length ys -> Forall four xs -> Forall four ys ->
  let h := concat (map2 (fun x y => x ++ y) xs ys) in
  length h = length xs * 8 /\ concat (map (firstn 4) (chunks 8 h)) = concat xs /\ concat (map (skipn 4) (chunks 8 h)) = concat ys.
Proof.
  induction xs as [|x xs IH]; intros [|y ys] L FX FY; try discriminate L; [split; [reflexivity|split; reflexivity]|].
  apply Forall_inv in FX as X. apply Forall_inv in FY as Y. apply Forall_inv_tail in FX. apply Forall_inv_tail in FY.
  destruct (IH ys ltac:(cbn [length] in L; lia) FX FY) as (A & B & C). cbn [map2 concat length].
  rewrite (chunks_exact 8 (x ++ y)) by (try discriminate; rewrite app_length; lia). cbn [map concat].
  rewrite B, C, (firstn_app_exact x y), (skipn_app_exact x y) by assumption. split; [|split; reflexivity].
  rewrite !app_length, A. lia.
Qed.
Lemma Forall_H1 cs : Forall four (map H1 cs).
Proof. apply Forall_forall. intros x X. apply in_map_iff in X. destruct X as (c & <- & _). apply (H1_len perm perm_len). Qed.
Lemma concat4 (xs : list (list Fr)) : Forall four xs -> length (concat xs) = length xs * 4.
Proof. induction xs as [|x xs IH]; intros F; [reflexivity|]. apply Forall_inv in F as X. apply Forall_inv_tail in F. cbn [concat length]. rewrite app_length, IH by exact F. lia. Qed.

Lemma lin512_eq a b bs : length a = length b -> lin512 h512 (a ++ b) bs = Ok (lin bs a, lin bs b).
Proof.
  intros L. unfold lin512. rewrite (mid_half a b L), (firstn_app_exact a b), (skipn_app_exact a b) by reflexivity. cbv zeta.
  rewrite div4. fold (bsize bs (length a)). unfold HashProof.lin. rewrite <- L.
  destruct (Nat.leb_spec (length a) 4) as [H|H].
  - unfold short512. rewrite <- L. apply Nat.leb_le in H as H'. rewrite H'. cbn [andb bind].
    rewrite (firstn_app_exact (pad_to 4 a)), (skipn_app_exact (pad_to 4 a)) by (apply pad_len; exact H). reflexivity.
  - pose proof (bsize_pos bs (length a)) as BP. set (k := bsize bs (length a)) in *. clearbody k.
    rewrite (chunks_pair k a BP b L). cbn [bind].
    assert (LC : length (map H1 (chunks k a)) = length (map H1 (chunks k b))) by (rewrite !map_length, !chunks_len, L by exact BP; reflexivity).
    destruct (unzip4 (map H1 (chunks k a)) (map H1 (chunks k b)) LC (Forall_H1 _) (Forall_H1 _)) as (A & B & C).
    pose proof (concat4 _ (Forall_H1 (chunks k a))) as CA. pose proof (concat4 _ (Forall_H1 (chunks k b))) as CB.
    assert (N0 : length (map H1 (chunks k a)) <> 0).
    { rewrite map_length. destruct a as [|x a]; [cbn [length] in H; lia|]. rewrite chunks_step by (auto; discriminate). discriminate. }
    pose proof (Forall_H1 (chunks k a)) as FA. pose proof (Forall_H1 (chunks k b)) as FB.
    set (xs := map H1 (chunks k a)) in *. set (ys := map H1 (chunks k b)) in *. clearbody xs ys.
    rewrite A, CA, CB, <- LC.
    destruct (Nat.leb_spec (length xs * 8) 8) as [Q|Q].
    + replace (length xs * 4 <=? 4) with true by (symmetry; apply Nat.leb_le; lia).
      destruct xs as [|x [|x' xs]]; [cbn [length] in N0; lia| |cbn [length] in Q; lia]. destruct ys as [|y [|y' ys]]; try discriminate LC.
      apply Forall_inv in FA. apply Forall_inv in FB. cbn [map2 concat]. rewrite !app_nil_r.
      rewrite (firstn_app_exact x y), (skipn_app_exact x y), firstn_all2, !pad_full by (assumption || lia). reflexivity.
    + replace (length xs * 4 <=? 4) with false by (symmetry; apply Nat.leb_gt; lia).
      rewrite B, C. rewrite lin512_1_eq by lia. cbn [unwrap bind].
      assert (LH : forall l, length (H1 l) = 4) by apply (H1_len perm perm_len).
      pose proof (slice_at [] (H1 (concat xs)) (H1 (concat ys)) 0 4 eq_refl (LH _)) as SA. cbn [app] in SA.
      pose proof (slice_at (H1 (concat xs)) (H1 (concat ys)) [] 4 4 (LH _) (LH _)) as SB. rewrite app_nil_r in SB.
      rewrite SA. cbn [bind]. rewrite SB. reflexivity.
Qed.

Lemma lin512_scalar a b bs : length a = length b ->
  lin512 h512 (a ++ b) bs = bind (lin_hash perm a bs) (fun x => bind (lin_hash perm b bs) (fun y => Ok (x, y))).
Proof. intros L. rewrite (lin512_eq a b bs L), !(lin_hash_eq perm perm_len). reflexivity. Qed.

Lemma matrix512 vals bs : hash_element_matrix512 h512 vals bs = hash_element_matrix perm vals bs.
Proof.
  unfold hash_element_matrix512, hash_element_matrix. destruct vals as [|v vals]; [reflexivity|]. destruct v as [|x v]; [reflexivity|].
  destruct (forallb _ _); [|reflexivity]. rewrite lin512_eq by reflexivity. rewrite (lin_hash_eq perm perm_len). reflexivity.
Qed.

(** ** Levels *)

Notation pairs := (pairs perm).
Notation node := (node perm).


Lemma quad_hash a b c d : length a = 4 -> length b = 4 -> length c = 4 -> length d = 4 ->
  lin512 h512 (concat [a; b; c; d]) 0 = Ok (node a b, node c d).
Proof.
  intros A B C D. cbn [concat]. rewrite app_nil_r. rewrite (app_assoc a b).
  rewrite lin512_eq by (rewrite !app_length; lia). rewrite !(node_lin perm) by assumption. reflexivity.
Qed.
Lemma two_hash a b t : length a = 4 -> length b = 4 -> length t = 8 ->
  exists y, lin512 h512 (concat [a; b] ++ t) 0 = Ok (node a b, y).
Proof.
  intros A B T. exists (lin 0 t). cbn [concat]. rewrite app_nil_r, lin512_eq by (rewrite !app_length; lia).
  rewrite (node_lin perm) by assumption. reflexivity.
Qed.

Lemma quads_eq n : forall p pre rest tl four0 out, length pre = p * 4 -> length rest = n * 4 -> Forall four rest -> length four0 = 16 ->
  exists fo, length fo = 16 /\ foldM (quad_step h512 (pre ++ rest ++ tl)) (seq p n) (four0, out) = Ok (fo, out ++ pairs rest).
Proof.
  induction n as [|n IH]; intros p pre rest tl four0 out HP HR HF H4.
  - destruct rest; [|discriminate HR]. exists four0. split; [exact H4|]. cbn. rewrite app_nil_r. reflexivity.
  - destruct rest as [|a [|b [|c [|d rest]]]]; try (cbn [length] in HR; lia).
    do 4 match goal with H : Forall _ (_ :: _) |- _ => let X := fresh "X" in apply Forall_inv in H as X; apply Forall_inv_tail in H end.
    destruct (IH (S p) (pre ++ [a; b; c; d]) rest tl (concat [a; b; c; d]) (out ++ [node a b; node c d])) as (fo & F & E).
    { rewrite app_length. cbn [length]. lia. } { cbn [length] in HR. lia. } { assumption. }
    { cbn [concat]. rewrite !app_length. cbn [length]. lia. }
    exists fo. split; [exact F|]. cbn [seq foldM]. unfold quad_step at 1.
    assert (SL : slice (pre ++ (a :: b :: c :: d :: rest) ++ tl) (p * 4) 4 = Ok [a; b; c; d]).
    { change ((a :: b :: c :: d :: rest) ++ tl) with ([a; b; c; d] ++ rest ++ tl). apply slice_at; [exact HP|reflexivity]. }
    rewrite SL. cbn [bind]. cbv zeta. rewrite quad_hash by assumption. cbn [unwrap bind fst snd].
    replace (pre ++ (a :: b :: c :: d :: rest) ++ tl) with ((pre ++ [a; b; c; d]) ++ rest ++ tl) by (rewrite <- app_assoc; reflexivity).
    rewrite E. cbn [MerkleProof.pairs]. rewrite <- app_assoc. reflexivity.
Qed.

Lemma do_level512_eq l n : length l = n * 2 -> l <> [] -> Forall four l -> do_level512 h512 l = Ok (pairs l).
Proof.
  intros HL HN HF. unfold do_level512. cbv zeta.
  pose proof (Nat.div_mod (length l) 4 ltac:(discriminate)) as D. pose proof (Nat.mod_upper_bound (length l) 4 ltac:(discriminate)) as U.
  set (q := length l / 4) in *. set (m := length l mod 4) in *. clearbody q m.
  destruct (Nat.eqb_spec q 0) as [Q|Q].
  - destruct l as [|a [|b [|c l]]]; try congruence; try (cbn [length] in *; lia).
    apply Forall_inv in HF as A. apply Forall_inv_tail in HF. apply Forall_inv in HF as B.
    change (slice [a; b] 0 2) with (Ok [a; b]). cbn [bind].
    destruct (two_hash a b (repeat f0 8) A B eq_refl) as (y & E). rewrite E. reflexivity.
  - rewrite <- (firstn_skipn (q * 4) l) in HF. apply Forall_app in HF. destruct HF as (F1 & F2).
    assert (L1 : length (firstn (q * 4) l) = q * 4) by (rewrite firstn_length; lia).
    destruct (quads_eq q 0 [] (firstn (q * 4) l) (skipn (q * 4) l) (repeat f0 16) [] eq_refl L1 F1 eq_refl) as (fo & LF & E).
    cbn [app] in E. rewrite firstn_skipn in E. rewrite E. cbn [bind].
    destruct (Nat.eqb_spec m 0) as [M|M].
    + rewrite firstn_all2 by lia. reflexivity.
    + assert (m = 2) as -> by lia. assert (L2 : length (skipn (q * 4) l) = 2) by (rewrite skipn_length; lia).
      destruct (skipn (q * 4) l) as [|a [|b [|c t]]] eqn:ES; try discriminate L2.
      apply Forall_inv in F2 as A. apply Forall_inv_tail in F2. apply Forall_inv in F2 as B.
      assert (EL : l = firstn (q * 4) l ++ [a; b] ++ []) by (rewrite app_nil_r, <- ES, firstn_skipn; reflexivity).
      assert (SL : slice l (length l - 2) 2 = Ok [a; b]).
      { rewrite EL at 1. apply slice_at; [lia|reflexivity]. }
      rewrite SL. cbn [bind].
      destruct (two_hash a b (skipn 8 fo) A B ltac:(rewrite skipn_length; lia)) as (y & E2). rewrite E2. cbn [unwrap bind fst].
      replace (q * 2 <? length l / 2) with true.
      2:{ symmetry. apply Nat.ltb_lt. rewrite D. replace (4 * q + 2) with ((2 * q + 1) * 2) by lia. rewrite Nat.div_mul by discriminate. lia. }
      rewrite EL at 2. rewrite app_nil_r, (pairs_app perm (q * 2)) by lia. reflexivity.
Qed.

Lemma chunk_even (per : nat) (l : list (list Fr)) : per <> 0 -> forall n, length l = n * 2 ->
  Forall (fun c => exists m, length c = m * 2 /\ c <> []) (chunks (2 * per) l).
Proof.
  intros P. assert (K : 2 * per <> 0) by lia.
  induction l as [l IH] using (well_founded_induction (Wf_nat.well_founded_ltof _ (@length (list Fr)))).
  intros n L. destruct l as [|x l0]; [constructor|]. set (l := x :: l0) in *. assert (N : l <> []) by discriminate.
  assert (LL : 0 < length l) by (unfold l; cbn [length]; lia). clearbody l.
  rewrite chunks_step by auto. constructor.
  - exists (Nat.min per n). rewrite firstn_length. split; [lia|]. intros Q. apply (f_equal (@length _)) in Q. rewrite firstn_length in Q. cbn [length] in Q. lia.
  - apply (IH (skipn (2 * per) l)) with (n := n - per); [unfold Wf_nat.ltof; rewrite skipn_length; lia|rewrite skipn_length; lia].
Qed.
Lemma Forall_slice (l s : list (list Fr)) a n : slice l a n = Ok s -> Forall four l -> Forall four s /\ length s = n.
Proof.
  unfold slice. destruct (Nat.leb_spec (a + n) (length l)) as [Q|Q]; [|discriminate]. intros E F. injection E as <-.
  split; [|rewrite firstn_length, skipn_length; lia].
  rewrite <- (firstn_skipn a l) in F. apply Forall_app in F. destruct F as [_ F].
  rewrite <- (firstn_skipn n (skipn a l)) in F. apply Forall_app in F. tauto.
Qed.

Lemma level512 workers nodes p_in n p_out : Forall four nodes ->
  merklize_level512 h512 workers nodes p_in n p_out = merklize_level perm workers nodes p_in n p_out /\
  (forall r, merklize_level perm workers nodes p_in n p_out = Ok r -> Forall four r).
Proof.
  intros HF. unfold merklize_level512, merklize_level. destruct ((n =? 0) || (workers =? 0)); [split; [reflexivity|discriminate]|].
  cbv zeta. assert (Hper : Nat.max ((n - 1) / (workers * 2) + 1) MIN_OPS <> 0) by lia.
  set (per := Nat.max ((n - 1) / (workers * 2) + 1) MIN_OPS) in *. clearbody per.
  destruct (slice nodes p_in (n * 2)) as [buff| | |] eqn:ES; try (split; [reflexivity|discriminate]). cbn [bind].
  destruct (Forall_slice _ _ _ _ ES HF) as (FB & LB).
  pose proof (chunk_even per buff Hper n LB) as CE. rewrite Forall_forall in CE.
  rewrite !(mapM_ok _ pairs).
  - split; [reflexivity|]. intros r E. cbn [bind] in E. destruct (slice nodes p_out n); try discriminate E. cbn [bind] in E.
    apply (f_equal (fun x => match x with Ok y => y | _ => r end)) in E. cbv beta iota in E. rewrite <- E. clear E r.
    apply Forall_app. split; [|apply Forall_app; split].
    + rewrite <- (firstn_skipn p_out nodes) in HF. apply Forall_app in HF. tauto.
    + rewrite pairs_chunks by exact Hper. set (k := Nat.min _ _). pose proof (pairs_four perm perm_len buff) as PF.
      rewrite <- (firstn_skipn k (pairs buff)) in PF. apply Forall_app in PF. tauto.
    + set (k := p_out + _). rewrite <- (firstn_skipn k nodes) in HF. apply Forall_app in HF. tauto.
  - intros c Hc. rewrite (do_level_eq perm perm_len); [reflexivity|]. eapply Forall_chunk; [|exact FB|exact Hc]. lia.
  - intros c Hc. destruct (CE c Hc) as (m & M1 & M2). rewrite (do_level512_eq c m M1 M2); [reflexivity|].
    eapply Forall_chunk; [|exact FB|exact Hc]. lia.
Qed.

Lemma loop512 workers fuel : forall nodes n64 next p_in p_out, Forall four nodes ->
  merk_loop512 h512 fuel workers nodes n64 next p_in p_out = merk_loop perm fuel workers nodes n64 next p_in p_out.
Proof.
  induction fuel as [|fu IH]; intros nodes n64 next p_in p_out HF; [reflexivity|]. cbn [merk_loop512 merk_loop].
  destruct (n64 <=? 1); [reflexivity|]. destruct (level512 workers nodes p_in next p_out HF) as (E & R). rewrite E.
  destruct (merklize_level perm workers nodes p_in next p_out) as [r| | |]; try reflexivity. cbn [bind]. cbv zeta.
  apply IH. apply R. reflexivity.
Qed.

(** ** Leaves *)

Lemma row_pairs w bb n : w <> 0 -> forall p pre rest, length bb = p * 2 * w + (n * 2 * w + rest) ->
  forall out, length out = p * 2 -> forall tl, n * 2 <= length tl -> pre = out ++ tl ->
  foldM (row_pair h512 w bb) (seq p n) pre
  = Ok (out ++ map (fun j => lin 0 (firstn w (skipn (j * w) bb))) (seq (p * 2) (n * 2)) ++ skipn (n * 2) tl).
Proof.
  intros W. induction n as [|n IH]; intros p pre rest LB out LO tl LT ->; [reflexivity|].
  destruct tl as [|t0 [|t1 tl]]; try (cbn [length] in LT; lia). cbn [seq foldM Nat.mul Nat.add map skipn].
  unfold row_pair at 1. unfold slice at 1.
  replace (p * w * 2 + w * 2 <=? length bb) with true by (symmetry; apply Nat.leb_le; nia). cbn [bind].
  set (r0 := firstn w (skipn (p * 2 * w) bb)). set (r1 := firstn w (skipn (S (p * 2) * w) bb)).
  assert (EB : firstn (w * 2) (skipn (p * w * 2) bb) = r0 ++ r1).
  { unfold r0, r1. replace (p * w * 2) with (p * 2 * w) by lia. replace (S (p * 2) * w) with (p * 2 * w + w) by lia.
    rewrite <- skipn_skipn'. set (z := skipn (p * 2 * w) bb). clearbody z.
    replace (w * 2) with (w + w) by lia. apply firstn_add'. }
  assert (LR0 : length r0 = w) by (unfold r0; rewrite firstn_length, skipn_length; nia).
  assert (LR1 : length r1 = w) by (unfold r1; rewrite firstn_length, skipn_length; nia).
  rewrite EB, lin512_eq by lia. cbn [unwrap bind fst snd]. cbv zeta.
  replace (p * 2 <? length (out ++ t0 :: t1 :: tl)) with true by (symmetry; apply Nat.ltb_lt; rewrite app_length; cbn [length]; lia).
  replace (p * 2 + 1 <? length (out ++ t0 :: t1 :: tl)) with true by (symmetry; apply Nat.ltb_lt; rewrite app_length; cbn [length]; lia).
  cbn [andb].
  assert (V0 : vset (out ++ t0 :: t1 :: tl) (p * 2) (lin 0 r0) = Ok (out ++ lin 0 r0 :: t1 :: tl)) by (rewrite <- LO; apply vset_app).
  assert (V1 : vset (out ++ lin 0 r0 :: t1 :: tl) (p * 2 + 1) (lin 0 r1) = Ok (out ++ lin 0 r0 :: lin 0 r1 :: tl)).
  { change (out ++ lin 0 r0 :: t1 :: tl) with (out ++ [lin 0 r0] ++ t1 :: tl). rewrite app_assoc.
    replace (p * 2 + 1) with (length (out ++ [lin 0 r0])) by (rewrite app_length; cbn [length]; lia).
    rewrite vset_app, <- app_assoc. reflexivity. }
  rewrite V0. cbn [bind]. rewrite V1. cbn [bind].
  rewrite (IH (S p) _ rest ltac:(nia) (out ++ [lin 0 r0; lin 0 r1]) ltac:(rewrite app_length; cbn [length]; lia) tl ltac:(cbn [length] in LT; lia))
    by (rewrite <- app_assoc; reflexivity).
  rewrite <- app_assoc. reflexivity.
Qed.

Lemma hash_rows512_eq w out bb k : length bb = k * w -> k <= length out -> hash_rows512 h512 w (out, bb) = hash_rows perm w (out, bb).
Proof.
  intros LB LO. destruct (Nat.eq_dec w 0) as [->|W]; [reflexivity|]. rewrite (hash_rows_eq perm perm_len w out bb k W LB LO).
  unfold hash_rows512. destruct (Nat.eqb_spec w 0); [lia|]. cbv zeta. rewrite LB, Nat.div_mul by exact W.
  pose proof (Nat.div_mod k 2 ltac:(discriminate)) as D. pose proof (Nat.mod_upper_bound k 2 ltac:(discriminate)) as U.
  set (c := k / 2) in *. set (m := k mod 2) in *. clearbody c m.
  rewrite (row_pairs w bb c W 0 out (m * w) ltac:(nia) [] eq_refl out ltac:(lia) eq_refl). cbn [bind app]. change (0 * 2) with 0.
  rewrite <- (rows_chunks w W k bb LB).
  assert (EM : (k * w) mod (w * 2) = m * w).
  { symmetry. apply (Nat.mod_unique _ _ c); nia. }
  rewrite EM. destruct (Nat.eqb_spec (m * w) 0) as [Z|Z].
  - assert (m = 0) by nia. assert (k = c * 2) as -> by lia. rewrite map_map. reflexivity.
  - assert (m = 1) by nia. assert (KE : k = c * 2 + 1) by lia.
    replace (c * w * 2) with (c * 2 * w) by lia.
    assert (LR : length (skipn (c * 2 * w) bb) = w) by (rewrite skipn_length; nia).
    rewrite LR, Nat.eqb_refl, lin512_eq by reflexivity. cbn [unwrap bind fst].
    destruct (skipn (c * 2) out) as [|t tl] eqn:ES.
    { apply (f_equal (@length _)) in ES. rewrite skipn_length in ES. cbn [length] in ES. lia. }
    set (ms := map _ (seq 0 (c * 2))). assert (LM : length ms = c * 2) by (unfold ms; rewrite map_length, seq_length; reflexivity).
    assert (V : vset (ms ++ t :: tl) (c * 2) (lin 0 (skipn (c * 2 * w) bb)) = Ok (ms ++ lin 0 (skipn (c * 2 * w) bb) :: tl)) by (rewrite <- LM; apply vset_app).
    rewrite V. f_equal. rewrite KE, seq_app, map_map, map_app. fold ms. cbn [seq map]. rewrite (Nat.add_0_l (c * 2)), <- app_assoc. cbn [app].
    rewrite (firstn_all2 (n := w) (skipn (c * 2 * w) bb)) by (rewrite LR; apply Nat.le_refl). f_equal. f_equal.
    rewrite <- skipn_skipn', ES. reflexivity.
Qed.

Lemma leaf512 per w nodes buff h : length buff = h * w -> h <= length nodes -> leaf_nodes512 h512 per w nodes buff = leaf_nodes perm per w nodes buff.
Proof.
  intros LB LN. unfold leaf_nodes512, leaf_nodes. destruct buff as [|x b]; [reflexivity|]. set (buff := x :: b) in *. clearbody buff.
  destruct (Nat.eqb_spec per 0) as [P|P]; [reflexivity|]. destruct (Nat.eqb_spec (per * w) 0) as [Q|Q]; [reflexivity|]. cbn [orb]. cbv zeta.
  assert (W : w <> 0) by nia.
  assert (E : mapM (hash_rows512 h512 w) (combine (chunks per nodes) (chunks (per * w) buff))
            = mapM (hash_rows perm w) (combine (chunks per nodes) (chunks (per * w) buff))).
  { clear x b. revert buff h LB LN.
    induction nodes as [nodes IH] using (well_founded_induction (Wf_nat.well_founded_ltof _ (@length (list Fr)))).
    intros buff h LB LN. destruct buff as [|x b]; [rewrite chunks_nil, !combine_nil; reflexivity|].
    set (buff := x :: b) in *. assert (NB : buff <> []) by discriminate. assert (LLB : 0 < length buff) by (unfold buff; cbn [length]; lia). clearbody buff.
    assert (NN : nodes <> []) by (destruct nodes; [cbn [length] in LN; nia|discriminate]).
    assert (LLN : 0 < length nodes) by (destruct nodes; [congruence|cbn [length]; lia]).
    rewrite (chunks_step per nodes), (chunks_step (per * w) buff) by auto. cbn [combine mapM].
    rewrite (hash_rows512_eq w _ _ (Nat.min per h)); [|rewrite firstn_length; nia|rewrite firstn_length; lia].
    rewrite (IH (skipn per nodes)) with (h := h - per); [reflexivity|unfold Wf_nat.ltof; rewrite skipn_length; lia|rewrite skipn_length; nia|rewrite skipn_length; lia]. }
  rewrite E. reflexivity.
Qed.

Theorem merkelize512_eq workers buff w h : length buff = h * w -> merkelize512 h512 workers buff w h = merkelize perm workers buff w h.
Proof.
  intros LB. unfold merkelize512, merkelize. destruct (Nat.eqb_spec h 0) as [H|H]; [reflexivity|].
  destruct (Nat.eqb_spec workers 0) as [Hw|Hw]; [reflexivity|]. cbn [orb].
  destruct (Nat.eq_dec h 1) as [->|H1].
  { change (get_n_nodes 1) with (Ok 2). cbn [bind].
    rewrite (leaf512 _ w _ buff 1 LB) by (rewrite repeat_length; lia).
    destruct (leaf_nodes perm _ w (repeat zero4 2) buff); reflexivity. }
  rewrite get_n_nodes_eq by lia. cbn [bind].
  assert (NG : h <= nstore h h) by (apply nstore_ge; lia).
  rewrite (leaf512 _ w _ buff h LB) by (rewrite repeat_length; exact NG).
  destruct (Nat.eq_dec (rows_per_thread workers w h) 0) as [R|R].
  { rewrite R. unfold leaf_nodes. destruct buff; [|reflexivity]. cbn [bind].
    rewrite loop512 by apply four_zeros. reflexivity. }
  rewrite (leaf_nodes_eq perm perm_len _ buff w h _ R LB NG). cbn [bind].
  rewrite loop512; [reflexivity|]. apply Forall_app. split; [apply (leaves_four perm perm_len)|apply four_zeros].
Qed.

Lemma root512 mp idx vals : root_from_group_proof512 h512 perm mp idx vals = root_from_group_proof perm mp idx vals.
Proof.
  unfold root_from_group_proof512, root_from_group_proof. rewrite lin512_eq by reflexivity. rewrite (lin_hash_eq perm perm_len). reflexivity.
Qed.
Lemma verify512 root mp idx vals : verify_group_proof512 h512 perm root mp idx vals = verify_group_proof perm root mp idx vals.
Proof. unfold verify_group_proof512, verify_group_proof. rewrite root512. reflexivity. Qed.
End Hash.
