(* The literal tables of the three Poseidon implementations describe the same constants. *)
From Verif Require Import Base ListAux GlModel GlProof FrField HashModel AvxModel AvxProof PosModel PosRing PosProof PosAvx PosConst.
Open Scope nat_scope.

Definition canonz (v : Z) : bool := ((0 <=? v) && (v <? MODULUS))%Z.
Lemma fint_fof v : canonz v = true -> fint (fof v) = v.
Proof.
  unfold canonz. intros H. apply andb_prop in H. destruct H as [H1 H2]. apply Z.leb_le in H1. apply Z.ltb_lt in H2.
  rewrite fint_of. apply Z.mod_small. split; assumption.
Qed.
Lemma fints_fof l : forallb canonz l = true -> map fint (map fof l) = l.
Proof.
  intros H. rewrite map_map. rewrite forallb_forall in H. rewrite <- (map_id l) at 2. apply map_ext_in. intros a I. apply fint_fof, H, I.
Qed.
Lemma load1 l : forallb canonz l = true -> mapM (fun v => if (v <? MODULUS)%Z then Ok (fof v) else Panic) l = Ok (map fof l).
Proof.
  induction l as [|a l IH]; [reflexivity|]. cbn [forallb mapM map]. intros H. apply andb_prop in H. destruct H as [H1 H2].
  unfold canonz in H1. apply andb_prop in H1. destruct H1 as [_ H1]. rewrite H1. cbn [bind]. rewrite (IH H2). reflexivity.
Qed.
Lemma load2 m : forallb (forallb canonz) m = true ->
  mapM (mapM (fun v => if (v <? MODULUS)%Z then Ok (fof v) else Panic)) m = Ok (map (map fof) m).
Proof.
  induction m as [|a m IH]; [reflexivity|]. cbn [forallb mapM map]. intros H. apply andb_prop in H. destruct H as [H1 H2].
  rewrite (load1 a H1). cbn [bind]. rewrite (IH H2). reflexivity.
Qed.

Definition gl_consts : glconsts := mkGL (map fof opt_c) (map (map fof) opt_m) (map (map fof) opt_p) (map fof opt_s).
Lemma canon_c : forallb canonz opt_c = true. Proof. vm_compute. reflexivity. Qed.
Lemma canon_m : forallb (forallb canonz) opt_m = true. Proof. vm_compute. reflexivity. Qed.
Lemma canon_p : forallb (forallb canonz) opt_p = true. Proof. vm_compute. reflexivity. Qed.
Lemma canon_s : forallb canonz opt_s = true. Proof. vm_compute. reflexivity. Qed.
Lemma gl_load_ok : gl_load opt_c opt_m opt_p opt_s = Ok gl_consts.
Proof.
  unfold gl_load. cbv zeta. rewrite (load1 _ canon_c). cbn [bind]. rewrite (load2 _ canon_m). cbn [bind].
  rewrite (load2 _ canon_p). cbn [bind]. rewrite (load1 _ canon_s). reflexivity.
Qed.

(* the rearrangements, on integers *)
Definition colsZ : nat -> list (list Z) -> list (list Z) := cols Z 0%Z.
Definition srowsZ (S : list Z) : list (list Z) :=
  flat_map (fun r => [firstn 12 (skipn (23 * r) S); 0%Z :: firstn 11 (skipn (23 * r + 12) S)]) (seq 0 22).
Definition c5Z (C : list Z) : list Z := dup4 (firstn 60 C) ++ firstn 22 (skipn 60 C) ++ dup4 (firstn 36 (skipn 82 C)).

Lemma map_dup4 {A B} (f : A -> B) : forall l, map f (dup4 l) = dup4 (map f l).
Proof. fix IH 1. intros [|a [|b [|c [|d l]]]]; try reflexivity. cbn [dup4 map]. rewrite IH. reflexivity. Qed.
Lemma cols_fof t M : forallb (forallb canonz) M = true -> map (map fint) (colsF t (map (map fof) M)) = colsZ t M.
Proof.
  intros H. unfold colsZ, cols. rewrite map_map. apply map_ext. intros i. rewrite !map_map. apply map_ext_in. intros row I.
  rewrite forallb_forall in H. specialize (H row I). rewrite <- (map_nth fint), fint_0, (fints_fof row H). reflexivity.
Qed.
Lemma srows_fof S : forallb canonz S = true -> map (map fint) (srows (map fof S)) = srowsZ S.
Proof.
  intros H. unfold srows, srowsZ. rewrite !flat_map_concat_map, concat_map, map_map. f_equal. apply map_ext. intros r. cbn [map].
  rewrite fint_0, <- !firstn_map, <- !skipn_map, fints_fof by exact H. reflexivity.
Qed.
Lemma c5_fof C : forallb canonz C = true -> map fint (c5 (map fof C)) = c5Z C.
Proof. intros H. unfold c5, c5Z. rewrite !map_app, !map_dup4, <- !firstn_map, <- !skipn_map, fints_fof by exact H. reflexivity. Qed.

Lemma av2_tables : av2_of gl_consts = mkAV avx2_c avx2_m avx2_p avx2_s.
Proof.
  unfold av2_of, gl_consts. cbn [gc gm gp gs].
  rewrite !concat_map, !cols_fof, srows_fof, fints_fof by (exact canon_c || exact canon_m || exact canon_p || exact canon_s).
  vm_compute. reflexivity.
Qed.
Lemma av5_tables : av5_of gl_consts = mkAV avx512_c avx512_m avx512_p avx512_s.
Proof.
  unfold av5_of, mat5, smat5, gl_consts. cbn [gc gm gp gs]. rewrite c5_fof by exact canon_c.
  assert (E : forall q : list (list Fr), map fint (concat (map dup4 q)) = concat (map dup4 (map (map fint) q))).
  { intros q. rewrite concat_map, !map_map. f_equal. apply map_ext. intros r. apply map_dup4. }
  rewrite !E, !cols_fof, srows_fof by (exact canon_m || exact canon_p || exact canon_s).
  vm_compute. reflexivity.
Qed.

Definition smallz (v : Z) : bool := (v <? 2 ^ 32)%Z.
Lemma gl_consts_ok : gl_ok gl_consts.
Proof.
  unfold gl_ok, gl_consts, square_m, small_m. cbn [gc gm gp gs]. rewrite !map_length.
  assert (F : forall M, forallb (fun r => length r =? 12) M = true -> Forall (fun row => length row = 12) (map (map fof) M)).
  { intros M H. rewrite forallb_forall in H. apply Forall_forall. intros x X. apply in_map_iff in X. destruct X as (r & <- & R).
    rewrite map_length. apply Nat.eqb_eq, H, R. }
  repeat split; try (apply F; vm_compute; reflexivity); try reflexivity; try (apply Nat.leb_le; vm_compute; reflexivity).
  apply Forall_forall. intros x X. apply in_map_iff in X. destruct X as (r & <- & R). apply Forall_forall. intros y Y.
  apply in_map_iff in Y. destruct Y as (v & <- & V).
  pose proof canon_m as C. rewrite forallb_forall in C. specialize (C r R). rewrite forallb_forall in C. specialize (C v V).
  unfold small32. rewrite (fint_fof v C).
  assert (Sm : forallb (forallb smallz) opt_m = true) by (vm_compute; reflexivity).
  rewrite forallb_forall in Sm. specialize (Sm r R). rewrite forallb_forall in Sm. specialize (Sm v V).
  unfold smallz in Sm. apply Z.ltb_lt in Sm. unfold canonz in C. apply andb_prop in C. destruct C as [C _]. apply Z.leb_le in C. split; assumption.
Qed.

Lemma poseidon_gl_eq inp init out : poseidon_gl inp init out = gl_hash gl_consts inp init out.
Proof. unfold poseidon_gl. rewrite gl_load_ok. reflexivity. Qed.
Global Opaque poseidon_gl.

Lemma avx2_panics g inp init out : gl_ok g ->
  avx2_hash (av2_of g) inp init out = if (4 <? out) && (length inp =? 8) && (length init =? 4) then Panic else gl_hash g inp init out.
Proof.
  intros G. rewrite (avx2_eq g inp init out G). unfold gl_hash.
  destruct (length inp =? 8); [|rewrite andb_false_r; reflexivity]. destruct (length init =? 4); [|rewrite andb_false_r; reflexivity].
  cbn [negb]. rewrite !andb_true_r, Nat.ltb_antisym. destruct (out <=? 4); reflexivity.
Qed.
Lemma avx2_poseidon inp init out :
  poseidon_avx2 inp init out = if (4 <? out) && (length inp =? 8) && (length init =? 4) then Panic else poseidon_gl inp init out.
Proof.
  unfold poseidon_avx2. rewrite <- av2_tables, (avx2_panics gl_consts inp init out gl_consts_ok).
  generalize (poseidon_gl_eq inp init out). generalize (poseidon_gl inp init out) (gl_hash gl_consts inp init out). intros x y ->. reflexivity.
Qed.

Lemma avx512_poseidon inp init out :
  poseidon_avx512 inp init out =
  if negb (length inp =? 16) then Err else if negb (length init =? 8) then Err
  else bind (poseidon_gl (half 0 inp) (halfc 0 init) 4) (fun a => bind (poseidon_gl (half 1 inp) (halfc 1 init) 4) (fun b =>
    take_out Fr (a ++ b) out)).
Proof.
  unfold poseidon_avx512. rewrite <- av5_tables, (avx512_eq gl_consts inp init out gl_consts_ok). 
  generalize (poseidon_gl_eq (half 0 inp) (halfc 0 init) 4) (poseidon_gl_eq (half 1 inp) (halfc 1 init) 4).
  generalize (poseidon_gl (half 0 inp) (halfc 0 init) 4) (gl_hash gl_consts (half 0 inp) (halfc 0 init) 4)
    (poseidon_gl (half 1 inp) (halfc 1 init) 4) (gl_hash gl_consts (half 1 inp) (halfc 1 init) 4).
  intros a b c d -> ->. reflexivity.
Qed.

(* the twelve state words left by the permutation on eight inputs and four capacity words *)
Definition gl_words (inp init : list Fr) : list Fr :=
  if (length inp =? 8) && (length init =? 4) then gl_perm gl_consts (inp ++ init) else repeat f0 12.
Lemma gl_words_len inp init : length (gl_words inp init) = 12.
Proof.
  unfold gl_words. destruct (Nat.eqb_spec (length inp) 8) as [A|A]; [|apply repeat_length].
  destruct (Nat.eqb_spec (length init) 4) as [B|B]; [|apply repeat_length]. cbn [andb].
  apply (gl_perm_ok gl_consts (inp ++ init) gl_consts_ok). rewrite app_length, A, B. reflexivity.
Qed.
Lemma gl_hash_words g inp init out : gl_ok g -> gl_hash g inp init out =
  if negb (length inp =? 8) then Err else if negb (length init =? 4) then Err
  else if out <=? 12 then Ok (firstn out (gl_perm g (inp ++ init))) else Panic.
Proof.
  intros G. unfold gl_hash. destruct (length inp =? 8) eqn:E1; [|reflexivity]. destruct (length init =? 4) eqn:E2; [|reflexivity]. cbn [negb].
  apply Nat.eqb_eq in E1. apply Nat.eqb_eq in E2.
  destruct (gl_perm_ok g (inp ++ init) G) as [E L]; [rewrite app_length, E1, E2; reflexivity|].
  rewrite E. cbn [bind]. unfold take_out, slice. rewrite L. reflexivity.
Qed.
Lemma poseidon_gl_words inp init out : poseidon_gl inp init out =
  if negb (length inp =? 8) then Err else if negb (length init =? 4) then Err
  else if out <=? 12 then Ok (firstn out (gl_words inp init)) else Panic.
Proof.
  rewrite poseidon_gl_eq. rewrite (gl_hash_words gl_consts inp init out gl_consts_ok). unfold gl_words.
  destruct (length inp =? 8); [|reflexivity]. destruct (length init =? 4); reflexivity.
Qed.
Global Opaque gl_words.
Lemma poseidon_gl_total inp init out : length inp = 8 -> length init = 4 -> out <= 12 ->
  exists v, poseidon_gl inp init out = Ok v /\ length v = out.
Proof.
  intros A B O. exists (firstn out (gl_words inp init)). rewrite poseidon_gl_words, A, B. apply Nat.leb_le in O as O'. rewrite O'.
  split; [reflexivity|]. rewrite firstn_length, gl_words_len. lia.
Qed.
(* the hash the linear hash, the Merkle tree and the transcript are modelled over *)
Lemma poseidon_hash_inst inp init out : out <= 12 -> poseidon_hash gl_words inp init out = poseidon_gl inp init out.
Proof. intros O. rewrite poseidon_gl_words. unfold poseidon_hash. apply Nat.leb_le in O. rewrite O. reflexivity. Qed.

Lemma avx2_agrees inp init out : out <= 4 -> poseidon_avx2 inp init out = poseidon_gl inp init out.
Proof.
  intros O. rewrite avx2_poseidon. replace (4 <? out) with false by (symmetry; apply Nat.ltb_ge; exact O). reflexivity.
Qed.
Lemma avx2_long inp init out : length inp = 8 -> length init = 4 -> 4 < out ->
  poseidon_avx2 inp init out = Panic /\
  (out <= 12 -> exists v, poseidon_gl inp init out = Ok v /\ length v = out).
Proof.
  intros A B O. split; [|intros H; apply poseidon_gl_total; assumption].
  rewrite avx2_poseidon, A, B. apply Nat.ltb_lt in O. rewrite O. reflexivity.
Qed.
Lemma avx512_pair a0 a1 b0 b1 ca cb out :
  length a0 = 4 -> length a1 = 4 -> length b0 = 4 -> length b1 = 4 -> length ca = 4 -> length cb = 4 ->
  exists x y, poseidon_gl (a0 ++ a1) ca 4 = Ok x /\ poseidon_gl (b0 ++ b1) cb 4 = Ok y /\ length x = 4 /\ length y = 4 /\
    poseidon_avx512 (a0 ++ b0 ++ a1 ++ b1) (ca ++ cb) out = (if out <=? 8 then Ok (firstn out (x ++ y)) else Panic).
Proof.
  intros A0 A1 B0 B1 CA CB.
  destruct (poseidon_gl_total (a0 ++ a1) ca 4) as (x & Ex & Lx); [rewrite app_length, A0, A1; reflexivity|exact CA|lia|].
  destruct (poseidon_gl_total (b0 ++ b1) cb 4) as (y & Ey & Ly); [rewrite app_length, B0, B1; reflexivity|exact CB|lia|].
  exists x, y. repeat (split; [assumption|]).
  rewrite avx512_poseidon. rewrite !app_length, A0, A1, B0, B1, CA, CB. cbn [Nat.add Nat.eqb negb].
  assert (H0 : half 0 (a0 ++ b0 ++ a1 ++ b1) = a0 ++ a1) by (unfold half; clear - A0 A1 B0 B1; lanes a0 4; lanes b0 4; lanes a1 4; lanes b1 4; reflexivity).
  assert (H1 : half 1 (a0 ++ b0 ++ a1 ++ b1) = b0 ++ b1) by (unfold half; clear - A0 A1 B0 B1; lanes a0 4; lanes b0 4; lanes a1 4; lanes b1 4; reflexivity).
  assert (K0 : halfc 0 (ca ++ cb) = ca) by (unfold halfc; clear - CA CB; lanes ca 4; lanes cb 4; reflexivity).
  assert (K1 : halfc 1 (ca ++ cb) = cb) by (unfold halfc; clear - CA CB; lanes ca 4; lanes cb 4; reflexivity).
  rewrite H0, H1, K0, K1, Ex. cbn [bind]. rewrite Ey. cbn [bind]. unfold take_out, slice. rewrite app_length, Lx, Ly. reflexivity.
Qed.
Lemma avx512_lengths inp init out : (length inp <> 16 \/ length init <> 8) -> poseidon_avx512 inp init out = Err.
Proof.
  intros H. rewrite avx512_poseidon. destruct (length inp =? 16) eqn:E1; [|reflexivity]. destruct (length init =? 8) eqn:E2; [|reflexivity].
  apply Nat.eqb_eq in E1. apply Nat.eqb_eq in E2. lia.
Qed.
