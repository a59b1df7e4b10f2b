(* The Merkle tree of arity sixteen and its row hashes. *)
From Verif Require Import Base GlModel NumTheory FrField ListAux HashModel HashProof MerkleProof BnModel.
Open Scope nat_scope.

Section Field.
Variables q rinv : Z.
Variable hash_ex : list Z -> Z -> nat -> res (list Z).
Notation hash_q := (hash_q hash_ex).
Notation hash_node := (hash_node hash_ex).

(** ** verification does not look at the row *)

Theorem row_ignored root s mp idx idx' vals vals' h' d' :
  hash_matrix1 q rinv hash_ex vals' = Ok h' -> from_scalar h' = Ok d' ->
  verify_group_proof16 q rinv hash_ex root (s :: mp) idx vals = Ok true ->
  verify_group_proof16 q rinv hash_ex root (s :: mp) idx' vals' = Ok true.
Proof.
  intros E1 E2 H. unfold verify_group_proof16, root_from_group_proof16 in *. rewrite E1. cbn [bind]. rewrite E2. cbn [bind].
  destruct (hash_matrix1 q rinv hash_ex vals) as [h| | |]; try discriminate H. cbn [bind] in H.
  destruct (from_scalar h) as [d| | |]; try discriminate H. cbn [bind] in H.
  cbn [root_from_proof16] in *.
  assert (X : forall mp i j v, root_from_proof16 hash_ex mp i v = root_from_proof16 hash_ex mp j v).
  { clear. induction mp as [|s mp IH]; intros i j v; cbn [root_from_proof16]; [reflexivity|].
    destruct (slice s 0 16); cbn [bind]; auto. destruct (hash_q a 0%Z); cbn [bind]; auto.
    destruct (from_scalar a0); cbn [bind]; auto. }
  destruct (slice s 0 16); cbn [bind] in *; try discriminate H.
  destruct (hash_q a 0%Z); cbn [bind] in *; try discriminate H.
  destruct (from_scalar a0); cbn [bind] in *; try discriminate H.
  rewrite (X mp (idx' / 16) (idx / 16)). exact H.
Qed.

(* only the last group of the path is compared with the root *)
Theorem only_last root mp s idx vals r :
  root_from_group_proof16 q rinv hash_ex (mp ++ [s]) idx vals = Ok r ->
  exists g h, slice s 0 16 = Ok g /\ hash_q g 0%Z = Ok h /\ from_scalar h = Ok r /\
    (verify_group_proof16 q rinv hash_ex root (mp ++ [s]) idx vals = Ok (list_eqb root r)).
Proof.
  intros H. unfold verify_group_proof16. rewrite H. cbn [bind]. unfold root_from_group_proof16 in H.
  destruct (hash_matrix1 q rinv hash_ex vals) as [h0| | |]; try discriminate H. cbn [bind] in H.
  destruct (from_scalar h0) as [d| | |]; try discriminate H. cbn [bind] in H.
  revert idx d H. induction mp as [|s' mp IH]; intros idx d H; cbn [app root_from_proof16] in H.
  - destruct (slice s 0 16) as [g| | |] eqn:E1; try discriminate H. cbn [bind] in H.
    destruct (hash_q g 0%Z) as [h| | |] eqn:E2; try discriminate H. cbn [bind] in H.
    destruct (from_scalar h) as [d'| | |] eqn:E3; try discriminate H. cbn [bind] in H.
    exists g, h. assert (d' = r) by congruence. subst d'. auto.
  - destruct (slice s' 0 16); cbn [bind] in H; try discriminate H.
    destruct (hash_q a 0%Z); cbn [bind] in H; try discriminate H.
    destruct (from_scalar a0); cbn [bind] in H; try discriminate H. eapply IH. exact H.
Qed.

(** ** completeness *)

Lemma six_bounds n : 1 <= n -> n <= sixteenth n * 16 <= n + 15 /\ 1 <= sixteenth n.
Proof.
  intros H. unfold sixteenth. pose proof (Nat.div_mod (n - 1) 16 ltac:(lia)).
  pose proof (Nat.mod_upper_bound (n - 1) 16 ltac:(lia)). lia.
Qed.

Lemma six_lt n : 2 <= n -> sixteenth n < n.
Proof. intros H. pose proof (six_bounds n ltac:(lia)). lia. Qed.

(* the groups of sixteen of a level and their hashes *)
Definition ups (lvl : list digest) : res (list digest) := mapM (fun g => unwrap (hash_node g)) (chunks 16 lvl).

Lemma mapM_ext {A B} (f g : A -> res B) l : (forall x, In x l -> f x = g x) -> mapM f l = mapM g l.
Proof.
  induction l as [|x l IH]; intros H; cbn [mapM]; [reflexivity|].
  rewrite (H x (or_introl eq_refl)), IH by (intros; apply H; right; auto). reflexivity.
Qed.

Lemma mapM_map {A B C} (f : B -> res C) (g : A -> B) l : mapM f (map g l) = mapM (fun x => f (g x)) l.
Proof. induction l as [|x l IH]; cbn [mapM map]; [reflexivity|]. rewrite IH. reflexivity. Qed.

Lemma mapM_app {A B} (f : A -> res B) a : forall b, mapM f (a ++ b) =
  bind (mapM f a) (fun x => bind (mapM f b) (fun y => Ok (x ++ y))).
Proof.
  induction a as [|x a IH]; intros b; cbn [mapM app bind].
  - destruct (mapM f b); reflexivity.
  - destruct (f x); cbn [bind]; auto. rewrite IH. destruct (mapM f a); cbn [bind]; auto. destruct (mapM f b); reflexivity.
Qed.

Lemma mapM_len {A B} (f : A -> res B) l : forall r, mapM f l = Ok r -> length r = length l.
Proof.
  induction l as [|x l IH]; intros r H; cbn [mapM] in H; [injection H as <-; reflexivity|].
  destruct (f x); try discriminate H. cbn [bind] in H. destruct (mapM f l) as [t| | |] eqn:E; try discriminate H.
  cbn [bind] in H. assert (r = a :: t) by congruence. subst r. cbn [length]. rewrite (IH t eq_refl). reflexivity.
Qed.

Lemma mapM_nth {A B} (f : A -> res B) l : forall r i x, mapM f l = Ok r -> nth_error l i = Some x ->
  exists y, f x = Ok y /\ nth_error r i = Some y.
Proof.
  induction l as [|a l IH]; intros r i x H HN; cbn [mapM] in H; [destruct i; discriminate HN|].
  destruct (f a) as [b| | |] eqn:Ef; try discriminate H. cbn [bind] in H.
  destruct (mapM f l) as [t| | |] eqn:E; try discriminate H. cbn [bind] in H.
  assert (r = b :: t) by congruence. subst r. destruct i as [|i]; cbn [nth_error] in *.
  - injection HN as ->. eauto.
  - eapply IH; eauto.
Qed.

Lemma do_level16_eq c k : length c = k * 16 -> do_level16 hash_ex c = ups c.
Proof.
  intros H. unfold do_level16, ups. rewrite H, Nat.div_mul by lia.
  rewrite <- (rows_chunks 16 ltac:(lia) k c H), mapM_map. apply mapM_ext. intros i Hi. apply in_seq in Hi.
  unfold slice. destruct (Nat.leb_spec (i * 16 + 16) (length c)); [reflexivity|lia].
Qed.

Lemma unwrap_idem {A} (f : A -> res digest) l : unwrap (mapM (fun x => unwrap (f x)) l) = mapM (fun x => unwrap (f x)) l.
Proof.
  assert (N : mapM (fun x => unwrap (f x)) l <> Err).
  { induction l as [|x l IH]; cbn [mapM]; [discriminate|].
    destruct (f x); cbn [unwrap bind]; try discriminate.
    destruct (mapM (fun x => unwrap (f x)) l); cbn [bind]; try discriminate. exact IH. }
  destruct (mapM (fun x => unwrap (f x)) l); cbn [unwrap]; congruence.
Qed.

Lemma level_parts per k : per <> 0 -> forall lvl parts, length lvl = k * 16 ->
  mapM (fun c => unwrap (do_level16 hash_ex c)) (chunks (16 * per) lvl) = Ok parts ->
  ups lvl = Ok (concat parts).
Proof.
  intros Hp. assert (Hk : 16 * per <> 0) by lia. revert k.
  assert (X : forall n k lvl parts, length lvl <= n -> length lvl = k * 16 ->
    mapM (fun c => unwrap (do_level16 hash_ex c)) (chunks (16 * per) lvl) = Ok parts -> ups lvl = Ok (concat parts)).
  { induction n as [|n IH]; intros k lvl parts Hn HL H.
    - assert (lvl = []) as -> by (apply length_0_nil; lia). cbn in H. injection H as <-. reflexivity.
    - destruct lvl as [|x l]; [cbn in H; injection H as <-; reflexivity|]. set (lvl := x :: l) in *.
      rewrite chunks_step in H by (auto; discriminate). cbn [mapM] in H.
      assert (LF : exists j, length (firstn (16 * per) lvl) = j * 16).
      { rewrite firstn_length. destruct (Nat.min_spec (16 * per) (length lvl)) as [[_ E]|[_ E]]; rewrite E; [exists per|exists k]; lia. }
      destruct LF as [j LF]. rewrite (do_level16_eq _ j LF) in H. unfold ups in H at 1. rewrite unwrap_idem in H.
      destruct (mapM (fun g => unwrap (hash_node g)) (chunks 16 (firstn (16 * per) lvl))) as [a| | |] eqn:Ea; try discriminate H.
      cbn [bind] in H.
      destruct (mapM (fun c => unwrap (do_level16 hash_ex c)) (chunks (16 * per) (skipn (16 * per) lvl))) as [b| | |] eqn:Eb; try discriminate H.
      cbn [bind] in H. assert (parts = a :: b) by congruence. subst parts. cbn [concat].
      assert (LS : exists j, length (skipn (16 * per) lvl) = j * 16).
      { exists (k - per). rewrite skipn_length. lia. }
      destruct LS as [j2 LS]. apply (IH j2) in Eb; [|rewrite skipn_length; unfold lvl in *; cbn [length] in *; lia|exact LS].
      unfold ups in *. rewrite <- (firstn_skipn (16 * per) lvl) at 1.
      rewrite (chunks_split 16 ltac:(lia) j) by exact LF. rewrite mapM_app, Ea. cbn [bind]. rewrite Eb. reflexivity. }
  intros k lvl parts HL H. eapply X; eauto.
Qed.

Lemma ups_len lvl k up : length lvl = k * 16 -> ups lvl = Ok up -> length up = k.
Proof.
  intros HL H. unfold ups in H. apply mapM_len in H. rewrite H. apply rows_count; [lia|exact HL].
Qed.

Lemma level16_inv workers pre lvl out rest n res' : n <> 0 -> length lvl = n * 16 -> length out = n ->
  merklize_level16 hash_ex workers (pre ++ lvl ++ out ++ rest) (length pre) n (length pre + length lvl) = Ok res' ->
  exists up, ups lvl = Ok up /\ res' = pre ++ lvl ++ up ++ rest.
Proof.
  intros Hn HL HO H. unfold merklize_level16 in H.
  destruct (Nat.eqb_spec n 0); [lia|]. destruct (Nat.eqb_spec workers 0); [discriminate H|]. cbn [orb] in H. cbn zeta in H.
  assert (Hper : Nat.max ((n - 1) / (workers * 16) + 1) MIN_OPS <> 0) by lia.
  set (per := Nat.max ((n - 1) / (workers * 16) + 1) MIN_OPS) in *. clearbody per.
  rewrite <- HL, slice_mid in H. cbn [bind] in H.
  destruct (mapM (fun c => unwrap (do_level16 hash_ex c)) (chunks (16 * per) lvl)) as [parts| | |] eqn:EP; try discriminate H.
  cbn [bind] in H. apply (level_parts per n Hper lvl parts HL) in EP.
  pose proof (ups_len lvl n _ HL EP) as LU.
  replace (pre ++ lvl ++ out ++ rest) with ((pre ++ lvl) ++ out ++ rest) in H by (rewrite <- app_assoc; reflexivity).
  rewrite <- app_length in H.
  assert (ES : slice ((pre ++ lvl) ++ out ++ rest) (length (pre ++ lvl)) n = Ok out) by (rewrite <- HO; apply slice_mid).
  rewrite ES in H. cbn [bind] in H. rewrite LU, Nat.min_id in H.
  rewrite firstn_app_exact in H by reflexivity. rewrite (firstn_all2 (concat parts)) in H by lia.
  replace (skipn (length (pre ++ lvl) + n) ((pre ++ lvl) ++ out ++ rest)) with rest in H.
  2:{ rewrite (app_assoc (pre ++ lvl)). rewrite skipn_app_exact; [reflexivity|]. rewrite (app_length (pre ++ lvl) out). lia. }
  exists (concat parts). split; [exact EP|]. rewrite <- app_assoc in H. congruence.
Qed.

Definition padded16 (lvl : list digest) : list digest := lvl ++ repeat zero4 (sixteenth (length lvl) * 16 - length lvl).

(* the stored nodes over a level *)
Inductive stored : list digest -> list digest -> digest -> Prop :=
| st_top d : stored [d] [d] d
| st_level lvl up st r : 2 <= length lvl -> ups (padded16 lvl) = Ok up -> stored up st r ->
    stored lvl (padded16 lvl ++ st) r.

Fixpoint nstore16 (fuel n : nat) : nat :=
  match fuel with
  | O => n
  | S fu => if n <=? 1 then n else sixteenth n * 16 + nstore16 fu (sixteenth n)
  end.

Lemma padded16_len lvl : lvl <> [] -> length (padded16 lvl) = sixteenth (length lvl) * 16.
Proof.
  intros H. unfold padded16. rewrite app_length, repeat_length.
  assert (1 <= length lvl) by (destruct lvl; [congruence|cbn; lia]).
  pose proof (six_bounds (length lvl) ltac:(lia)). lia.
Qed.

Lemma nstore16_ge fuel n : n <= fuel -> n <= nstore16 fuel n.
Proof.
  revert n. induction fuel as [|fu IH]; intros n H; cbn [nstore16]; [lia|].
  destruct (Nat.leb_spec n 1); [lia|]. pose proof (six_bounds n ltac:(lia)). lia.
Qed.

Lemma nstore16_split fuel n : 2 <= n -> n <= S fuel ->
  nstore16 (S fuel) n - n = (sixteenth n * 16 - n) + (sixteenth n + (nstore16 fuel (sixteenth n) - sixteenth n)).
Proof.
  intros H1' H2. cbn [nstore16]. destruct (Nat.leb_spec n 1); [lia|].
  pose proof (six_bounds n ltac:(lia)). pose proof (six_lt n H1').
  pose proof (nstore16_ge fuel (sixteenth n) ltac:(lia)). lia.
Qed.

Lemma nstore16_more a : forall b n, n <= a -> n <= b -> nstore16 a n = nstore16 b n.
Proof.
  induction a as [|a IH]; intros b n Ha Hb.
  - assert (n = 0) by lia. subst n. destruct b; reflexivity.
  - destruct b as [|b]; [assert (n = 0) by lia; subst n; reflexivity|]. cbn [nstore16].
    destruct (Nat.leb_spec n 1); [reflexivity|]. pose proof (six_lt n ltac:(lia)).
    rewrite (IH b) by lia. reflexivity.
Qed.

Lemma n_nodes16_eq fuel : forall n acc, 2 <= n -> n <= fuel ->
  n_nodes_loop16 fuel n (sixteenth n) acc = acc + nstore16 fuel (sixteenth n).
Proof.
  induction fuel as [|fu IH]; intros n acc H1' H2; [lia|]. cbn [n_nodes_loop16 nstore16].
  destruct (Nat.leb_spec n 1); [lia|]. pose proof (six_bounds n ltac:(lia)). pose proof (six_lt n H1').
  destruct (Nat.ltb_spec 1 (sixteenth n)) as [Q|Q].
  - destruct (Nat.leb_spec (sixteenth n) 1); [lia|]. rewrite IH by lia. lia.
  - assert (E : sixteenth n = 1) by lia. rewrite E. cbn [Nat.leb]. destruct fu; reflexivity.
Qed.

Lemma get_n_nodes16_eq n : 2 <= n -> get_n_nodes16 n = Ok (nstore16 n n).
Proof.
  intros H. unfold get_n_nodes16. destruct (Nat.eqb_spec n 0); [lia|].
  rewrite n_nodes16_eq by lia. f_equal. destruct n as [|m]; [lia|].
  pose proof (six_lt (S m) H).
  assert (E : nstore16 (S m) (S m) = sixteenth (S m) * 16 + nstore16 m (sixteenth (S m)))
    by (cbn [nstore16]; destruct (Nat.leb_spec (S m) 1); [lia|reflexivity]).
  rewrite E, (nstore16_more (S m) m) by lia. reflexivity.
Qed.

Lemma loop16_inv workers : forall fuel pre lvl res', length lvl <= fuel -> lvl <> [] ->
  merk_loop16 hash_ex (S fuel) workers (pre ++ lvl ++ repeat zero4 (nstore16 fuel (length lvl) - length lvl))
    (length lvl) (sixteenth (length lvl)) (length pre) (length pre + sixteenth (length lvl) * 16) = Ok res' ->
  exists st r, res' = pre ++ st /\ stored lvl st r.
Proof.
  induction fuel as [|fu IH]; intros pre lvl res' HL HN H.
  { destruct lvl; [congruence|cbn in HL; lia]. }
  cbn [merk_loop16] in H. destruct (Nat.leb_spec (length lvl) 1) as [Q|Q].
  - cbn [nstore16] in H. destruct (Nat.leb_spec (length lvl) 1); [|lia].
    rewrite Nat.sub_diag in H. cbn [repeat] in H. rewrite app_nil_r in H.
    destruct lvl as [|d [|]]; [congruence| |cbn in Q; lia].
    exists [d], d. split; [congruence|constructor].
  - pose proof (six_bounds (length lvl) ltac:(lia)) as HB. pose proof (six_lt (length lvl) ltac:(lia)) as Hlt.
    rewrite (nstore16_split fu) in H by lia. rewrite !repeat_app in H.
    replace (pre ++ lvl ++ repeat zero4 (sixteenth (length lvl) * 16 - length lvl) ++
             repeat zero4 (sixteenth (length lvl)) ++ repeat zero4 (nstore16 fu (sixteenth (length lvl)) - sixteenth (length lvl)))
      with (pre ++ padded16 lvl ++ repeat zero4 (sixteenth (length lvl)) ++ repeat zero4 (nstore16 fu (sixteenth (length lvl)) - sixteenth (length lvl))) in H
      by (unfold padded16; rewrite <- app_assoc; reflexivity).
    pose proof (padded16_len lvl HN) as PL.
    rewrite <- PL in H.
    destruct (merklize_level16 hash_ex workers _ _ _ _) as [nodes| | |] eqn:EL; try discriminate H. cbn [bind] in H.
    apply level16_inv in EL; [|lia|exact PL|apply repeat_length]. destruct EL as (up & EU & ->).
    pose proof (ups_len _ _ _ PL EU) as LU.
    destruct (IH (pre ++ padded16 lvl) up res') as (st & r & E & S).
    + lia.
    + intros E. rewrite E in LU. cbn [length] in LU. lia.
    + rewrite LU, app_length, <- app_assoc. exact H.
    + exists (padded16 lvl ++ st), r. split; [rewrite E, <- app_assoc; reflexivity|].
      econstructor; eauto.
Qed.

Lemma stored_last lvl st r : stored lvl st r -> st <> [] /\ nth_error st (length st - 1) = Some r.
Proof.
  induction 1 as [d|lvl up st r HL EU S IH]; [split; [discriminate|reflexivity]|].
  destruct IH as [IH1 IH2]. split; [intros E; apply app_eq_nil in E; tauto|].
  assert (length st <> 0) by (intros E; apply length_0_nil in E; congruence).
  rewrite app_length, nth_error_app2 by lia.
  replace (length (padded16 lvl) + length st - 1 - length (padded16 lvl)) with (length st - 1) by lia. exact IH2.
Qed.

Lemma group_start_eq idx : (Z.of_nat idx < 2 ^ 32)%Z -> group_start idx = idx / 16 * 16.
Proof.
  intros H. unfold group_start.
  assert (E : Z.land (Z.of_nat idx) 4294967280 = Z.shiftl (Z.shiftr (Z.of_nat idx) 4) 4).
  { apply Z.bits_inj'. intros n Hn. rewrite Z.land_spec.
    change 4294967280%Z with (Z.shiftl (Z.ones 28) 4).
    rewrite Z.shiftl_spec by exact Hn. rewrite (Z.shiftl_spec (Z.shiftr _ _)) by exact Hn.
    destruct (Z.ltb_spec n 4) as [Q|Q].
    - rewrite (Z.testbit_neg_r (Z.ones 28)), (Z.testbit_neg_r (Z.shiftr _ _)) by lia. apply andb_false_r.
    - rewrite Z.shiftr_spec by lia. replace (n - 4 + 4)%Z with n by lia.
      destruct (Z.ltb_spec n 32) as [Q2|Q2].
      + rewrite Z.ones_spec_low by lia. apply andb_true_r.
      + rewrite Z.ones_spec_high by lia. rewrite andb_false_r. symmetry.
        destruct (Z.eq_dec (Z.of_nat idx) 0) as [E0|E0]; [rewrite E0; apply Z.bits_0|].
        apply Z.bits_above_log2; [lia|]. assert (Z.log2 (Z.of_nat idx) < 32)%Z by (apply Z.log2_lt_pow2; lia). lia. }
  rewrite E, Z.shiftl_mul_pow2, Z.shiftr_div_pow2 by lia. change (2 ^ 4)%Z with (Z.of_nat 16).
  rewrite <- Nat2Z.inj_div, <- Nat2Z.inj_mul, Nat2Z.id. reflexivity.
Qed.

Lemma chunk_nth {A} (l : list A) k i : length l = k * 16 -> i < k ->
  nth_error (chunks 16 l) i = Some (firstn 16 (skipn (i * 16) l)).
Proof.
  intros HL Hi. rewrite <- (rows_chunks 16 ltac:(lia) k l HL), nth_error_map.
  rewrite (nth_error_nth_lt _ _ 0) by (rewrite seq_length; exact Hi). rewrite seq_nth by exact Hi. reflexivity.
Qed.

Lemma opening16 lvl st r : stored lvl st r -> forall pre fuel idx, length lvl <= fuel -> idx < length lvl -> (Z.of_nat idx < 2 ^ 32)%Z ->
  exists mp, gen_proof16 (S fuel) (pre ++ st) idx (length pre) (length lvl) = Ok mp /\
    (2 <= length lvl -> forall v, root_from_proof16 hash_ex mp idx v = Ok r).
Proof.
  induction 1 as [d|lvl up st r HL EU ST IH]; intros pre fuel idx HF HI H32.
  - exists []. cbn [gen_proof16 length Nat.leb]. split; [reflexivity|]. cbn [length]. lia.
  - assert (HN : lvl <> []) by (apply len_nonnil; lia).
    pose proof (padded16_len lvl HN) as PL. pose proof (ups_len _ _ _ PL EU) as LU.
    pose proof (six_bounds (length lvl) ltac:(lia)) as HB. pose proof (six_lt (length lvl) HL) as Hlt.
    pose proof (Nat.div_mod idx 16 ltac:(lia)) as DM. pose proof (Nat.mod_upper_bound idx 16 ltac:(lia)) as MB.
    assert (HI' : idx / 16 < sixteenth (length lvl)) by nia.
    destruct fuel as [|fu]; [lia|].
    destruct (IH (pre ++ padded16 lvl) fu (idx / 16)) as (mp & E1 & E2); [lia|lia|lia|].
    set (g := firstn 16 (skipn (idx / 16 * 16) (padded16 lvl))).
    assert (LG : length g = 16) by (unfold g; rewrite firstn_length, skipn_length; nia).
    assert (EG : nth_error (chunks 16 (padded16 lvl)) (idx / 16) = Some g) by (apply (chunk_nth _ _ _ PL HI')).
    destruct (mapM_nth _ _ _ _ _ EU EG) as (d & Ed & Nd).
    exists (map as_scalar g :: mp). split.
    + remember (S fu) as sf eqn:Esf. cbn [gen_proof16]. destruct (Nat.leb_spec (length lvl) 1); [lia|].
      rewrite group_start_eq by exact H32.
      rewrite (mapM_ok _ (fun i => as_scalar (nth (idx / 16 * 16 + i) (padded16 lvl) zero4))).
      2:{ intros i Hi. apply in_seq in Hi.
          rewrite (vget_some _ _ (nth (idx / 16 * 16 + i) (padded16 lvl) zero4)); [reflexivity|].
          rewrite nth_error_app2 by lia. rewrite Nat.add_comm, Nat.add_sub.
          rewrite nth_error_app1 by nia. apply nth_error_nth_lt. nia. }
      cbn [bind]. subst sf. rewrite app_length, PL, <- app_assoc, LU in E1. rewrite E1. cbn [bind]. f_equal. f_equal.
      rewrite <- (map_map (fun i => nth (idx / 16 * 16 + i) (padded16 lvl) zero4) as_scalar). f_equal.
      apply nth_error_ext_len; [rewrite map_length, seq_length; lia|].
      intros i Hi. rewrite map_length, seq_length in Hi.
      rewrite nth_error_map, (nth_error_nth_lt _ _ 0) by (rewrite seq_length; exact Hi). rewrite seq_nth by exact Hi.
      cbn [option_map Nat.add]. rewrite (nth_error_nth_lt _ i zero4) by lia. f_equal.
      unfold g. rewrite nth_firstn_lt by exact Hi. rewrite nth_skipn'. reflexivity.
    + intros _ v. cbn [root_from_proof16]. unfold slice. rewrite map_length, LG. cbn [Nat.add Nat.leb skipn bind].
      rewrite firstn_all2 by (rewrite map_length; lia).
      unfold BnModel.hash_node in Ed. rewrite LG in Ed. cbn [Nat.eqb negb] in Ed.
      destruct (hash_q (map as_scalar g) 0%Z) as [h| | |]; cbn [bind unwrap] in *; try discriminate Ed.
      destruct (from_scalar h) as [d'| | |]; cbn [bind unwrap] in *; try discriminate Ed.
      assert (d' = d) by congruence. subst d'.
      destruct (Nat.le_gt_cases 2 (length up)) as [Q|Q]; [apply E2; exact Q|].
      (* the top *)
      inversion ST; subst; [|lia]. destruct (idx / 16) as [|m]; [|cbn [length] in *; lia].
      injection Nd as ->. cbn [gen_proof16 length Nat.leb] in E1. injection E1 as <-. reflexivity.
Qed.

Lemma leaf16_len per w buff nodes res' h : per <> 0 -> w <> 0 -> length buff = h * w -> h <= length nodes ->
  leaf_nodes16 q rinv hash_ex per w nodes buff = Ok res' ->
  exists lv, length lv = h /\ res' = lv ++ skipn h nodes.
Proof.
  intros Hp Hw. revert nodes buff res'. induction h as [h IH] using lt_wf_ind. intros nodes buff res' HL HN H.
  assert (Hpw : per * w <> 0) by nia.
  destruct h as [|h0].
  - assert (buff = []) as -> by (apply length_0_nil; lia). cbn in H. exists []. split; [reflexivity|]. cbn [skipn app]. congruence.
  - set (h := S h0) in *. assert (HB : buff <> []) by (destruct buff; [cbn in HL; nia|discriminate]).
    assert (HNN : nodes <> []) by (destruct nodes; [cbn in HN; lia|discriminate]).
    unfold leaf_nodes16 in H. destruct buff as [|x0 b0] eqn:EBuf; [congruence|]. rewrite <- EBuf in *.
    destruct (Nat.eqb_spec per 0); [lia|]. destruct (Nat.eqb_spec (per * w) 0); [lia|]. cbn [orb] in H. cbn zeta in H.
    rewrite (chunks_step per nodes), (chunks_step (per * w) buff) in H by auto.
    cbn [combine mapM length] in H. rewrite concat_combine_cons in H.
    destruct (hash_rows16 q rinv hash_ex w (firstn per nodes, firstn (per * w) buff)) as [p0| | |] eqn:E0; try discriminate H. cbn [bind] in H.
    destruct (mapM (hash_rows16 q rinv hash_ex w) (combine (chunks per (skipn per nodes)) (chunks (per * w) (skipn (per * w) buff)))) as [ps| | |] eqn:E1; try discriminate H.
    cbn [bind concat] in H.
    unfold hash_rows16 in E0. destruct (Nat.eqb_spec w 0); [lia|]. cbn zeta in E0.
    set (k := Nat.min (length (firstn per nodes)) (length (firstn (per * w) buff) / w)) in E0.
    destruct (mapM _ (seq 0 k)) as [hs| | |] eqn:Eh in E0; try discriminate E0. cbn [bind] in E0.
    apply mapM_len in Eh. rewrite seq_length in Eh. assert (p0 = hs ++ skipn k (firstn per nodes)) by congruence. subst p0.
    destruct (Nat.le_gt_cases per h) as [Q|Q].
    + assert (Ek : k = per).
      { unfold k. rewrite !firstn_length. rewrite (Nat.min_l (per * w)) by nia. rewrite Nat.div_mul by lia. lia. }
      rewrite Ek in *. rewrite (skipn_all2 (firstn per nodes)) in H by (rewrite firstn_length; lia). rewrite app_nil_r in H.
      destruct (IH (h - per) ltac:(lia) (skipn per nodes) (skipn (per * w) buff)
        (concat ps ++ concat (skipn (length (combine (chunks per (skipn per nodes)) (chunks (per * w) (skipn (per * w) buff)))) (chunks per (skipn per nodes)))))
        as (lv & LL & EL).
      * rewrite skipn_length. nia.
      * rewrite skipn_length. lia.
      * unfold leaf_nodes16. destruct (skipn (per * w) buff) as [|y b1] eqn:Es.
        -- rewrite chunks_nil, combine_nil in *. cbn [mapM] in E1. injection E1 as <-. cbn [concat app length skipn]. rewrite concat_chunks by auto. reflexivity.
        -- destruct (Nat.eqb_spec per 0); [lia|]. destruct (Nat.eqb_spec (per * w) 0); [lia|]. cbn [orb]. cbn zeta.
           rewrite E1. reflexivity.
      * exists (hs ++ lv). split; [rewrite app_length; lia|].
        rewrite <- app_assoc in H. rewrite EL in H. rewrite <- app_assoc. rewrite skipn_skipn' in H.
        replace (per + (h - per)) with h in H by lia. congruence.
    + assert (Ek : k = h).
      { unfold k. rewrite !firstn_length. rewrite (Nat.min_r (per * w)) by nia. rewrite HL, Nat.div_mul by lia. lia. }
      rewrite Ek in *. rewrite (skipn_all2 buff) in * by nia. rewrite chunks_nil, combine_nil in *. cbn [mapM] in E1. injection E1 as <-.
      cbn [concat length skipn] in H. rewrite app_nil_r, concat_chunks in H by auto.
      exists hs. split; [lia|]. rewrite <- app_assoc in H.
      replace (skipn h nodes) with (skipn h (firstn per nodes) ++ skipn per nodes); [congruence|].
      rewrite <- (firstn_skipn per nodes) at 3. rewrite skipn_app, firstn_length.
      replace (h - Nat.min per (length nodes)) with 0 by lia. reflexivity.
Qed.

Theorem complete16 workers buff w h t idx : 2 <= h -> (Z.of_nat h <= 2 ^ 32)%Z -> length buff = h * w ->
  merkelize16 q rinv hash_ex workers buff w h = Ok t -> idx < h ->
  exists mp r, get_group_proof16 t idx = Ok (firstn w (skipn (idx * w) buff), mp) /\ tree_root t = Ok r /\
    forall vals hv d, hash_matrix1 q rinv hash_ex vals = Ok hv -> from_scalar hv = Ok d ->
      verify_group_proof16 q rinv hash_ex r mp idx vals = Ok true.
Proof.
  intros Hh H32 HL HM HI. unfold merkelize16 in HM.
  destruct (Nat.eqb_spec h 0); [lia|]. destruct (Nat.eqb_spec workers 0); [discriminate HM|]. cbn [orb] in HM.
  rewrite get_n_nodes16_eq in HM by exact Hh. cbn [bind] in HM.
  destruct (leaf_nodes16 _ _ _ _ _ _ _) as [nodes| | |] eqn:EN; try discriminate HM. cbn [bind] in HM.
  assert (HLV : exists lv, length lv = h /\ nodes = lv ++ repeat zero4 (nstore16 h h - h)).
  { destruct buff as [|x b] eqn:EB.
    - unfold leaf_nodes16 in EN. exists (repeat zero4 h). split; [apply repeat_length|].
      rewrite <- repeat_app. replace (h + (nstore16 h h - h)) with (nstore16 h h) by (pose proof (nstore16_ge h h); lia). congruence.
    - rewrite <- EB in *. assert (Hw : w <> 0) by (intros ->; rewrite EB in HL; cbn in HL; lia).
      assert (Hper : rows_per_thread16 workers w h <> 0).
      { intros E. rewrite EB in EN. unfold leaf_nodes16 in EN. rewrite E in EN. discriminate EN. }
      assert (HG : h <= length (repeat zero4 (nstore16 h h))) by (rewrite repeat_length; apply nstore16_ge; apply le_n).
      destruct (leaf16_len _ w buff _ nodes h Hper Hw HL HG EN) as (lv & L1 & L2).
      exists lv. split; [exact L1|]. rewrite L2, skipn_repeat'. reflexivity. }
  destruct HLV as (lv & LL & ->).
  destruct (merk_loop16 _ _ _ _ _ _ _ _) as [nodes'| | |] eqn:EM; try discriminate HM. cbn [bind] in HM.
  destruct (loop16_inv workers h [] lv nodes') as (st & r & E & S).
  { lia. } { apply len_nonnil; lia. } { rewrite LL. exact EM. }
  cbn [app] in E. subst nodes'. assert (t = mkTree buff w h st) by congruence. subst t. clear HM.
  destruct (opening16 lv st r S [] h idx ltac:(lia) ltac:(lia) ltac:(lia)) as (mp & E1 & E2).
  rewrite LL in E1, E2. cbn [app length] in E1.
  exists mp, r. split; [|split].
  - unfold get_group_proof16. cbn [t_height t_elements t_width t_nodes].
    destruct (Nat.leb_spec h idx); [lia|]. rewrite mapM_row by nia. cbn [bind]. rewrite E1. reflexivity.
  - unfold tree_root. cbn [t_nodes]. destruct (stored_last lv st r S) as [N1 N2].
    destruct st as [|d0 st'] eqn:Es; [congruence|]. rewrite <- Es in *. apply vget_some. exact N2.
  - intros vals hv d Ehv Ed. unfold verify_group_proof16, root_from_group_proof16. rewrite Ehv. cbn [bind]. rewrite Ed. cbn [bind].
    rewrite E2 by exact Hh. cbn [bind]. f_equal. apply list_eqb_eq. reflexivity.
Qed.

(** ** the two row hashes *)

Hypothesis q_big : (2 ^ 192 < q)%Z.
Hypothesis q_inv : (R256 * rinv mod q = 1)%Z.

Definition mont (v : Z) : Z := (v * R256 mod q)%Z.

Lemma mont_mul a b : (0 <= a)%Z -> (0 <= b)%Z -> q_mul q rinv (mont a) (mont b) = mont (a * b)%Z.
Proof.
  intros _ _. unfold q_mul, mont. rewrite <- Z.mul_mod_idemp_l by lia.
  rewrite <- (Z.mul_mod (a * R256) (b * R256)) by lia. rewrite Z.mul_mod_idemp_l by lia.
  replace (a * R256 * (b * R256) * rinv)%Z with ((a * b * R256) * (R256 * rinv))%Z by ring.
  rewrite <- Z.mul_mod_idemp_r, q_inv, Z.mul_1_r by lia. reflexivity.
Qed.

Lemma mont_add a b : q_add q (mont a) (mont b) = mont (a + b)%Z.
Proof. unfold q_add, mont. rewrite <- Z.add_mod by lia. f_equal. ring. Qed.

Lemma fint_small a : (0 <= fint a < 2 ^ 64)%Z.
Proof. pose proof (fint_range a). assert (P < 2 ^ 64)%Z by reflexivity. lia. Qed.

Lemma from_repr_small v : (0 <= v < 2 ^ 192)%Z -> q_from_repr q v = Ok (mont v).
Proof. intros H. unfold q_from_repr. destruct (Z.ltb_spec v q); [reflexivity|lia]. Qed.

Lemma as_scalar3 c : length c <= 3 -> (0 <= as_scalar (pad_to 4 c) < 2 ^ 192)%Z.
Proof.
  intros H. assert (F0 : fint f0 = 0%Z) by (vm_compute; reflexivity).
  destruct c as [|a [|b [|c' [|? ?]]]]; cbn [length] in H; try lia; unfold pad_to; cbn [length Nat.sub repeat app as_scalar]; rewrite ?F0;
    repeat match goal with |- context [fint ?x] => pose proof (fint_small x); generalize dependent (fint x); intros end;
    change (2 ^ 192)%Z with (2 ^ 64 * (2 ^ 64 * 2 ^ 64))%Z; set (B := (2 ^ 64)%Z) in *; assert (0 < B)%Z by reflexivity; clearbody B; nia.
Qed.

Definition group3 (c : list Fr) : Z := mont (as_scalar (pad_to 4 c)).

Lemma acc3 vals3 a b c : foldM (acc_step q rinv) [a; b; c] (vals3, 0%Z, 0) = Ok (vals3 ++ [group3 [a; b; c]], 0%Z, 0).
Proof.
  pose proof (fint_small a). pose proof (fint_small b). pose proof (fint_small c).
  assert (S64 : (2 ^ 64 < 2 ^ 192)%Z) by reflexivity.
  cbn [foldM]. unfold acc_step at 1. rewrite from_repr_small by lia. cbn [bind Nat.eqb].
  unfold acc_step at 1. rewrite from_repr_small by lia. cbn [bind Nat.eqb].
  unfold acc_step at 1. rewrite from_repr_small by lia. cbn [bind Nat.eqb foldM].
  assert (O1 : OFFSET_2_64 q = mont (2 ^ 64)) by reflexivity. assert (O2 : OFFSET_2_128 q = mont (2 ^ 128)) by reflexivity.
  rewrite O1, O2, !mont_mul by lia. replace 0%Z with (mont 0) at 1 by (unfold mont; rewrite Z.mul_0_l; apply Z.mod_0_l; lia).
  rewrite !mont_add. f_equal. f_equal. f_equal. f_equal. f_equal. f_equal. unfold group3. f_equal.
  unfold pad_to. cbn [length Nat.sub repeat app as_scalar]. assert (F0 : fint f0 = 0%Z) by (vm_compute; reflexivity).
  rewrite F0. change (2 ^ 128)%Z with (2 ^ 64 * 2 ^ 64)%Z. ring.
Qed.

Lemma acc12 vals3 c : 1 <= length c <= 2 -> foldM (acc_step q rinv) c (vals3, 0%Z, 0) = Ok (vals3, group3 c, length c).
Proof.
  intros H. assert (S64 : (2 ^ 64 < 2 ^ 192)%Z) by reflexivity. assert (F0 : fint f0 = 0%Z) by (vm_compute; reflexivity).
  assert (M0 : 0%Z = mont 0) by (unfold mont; rewrite Z.mul_0_l; symmetry; apply Z.mod_0_l; lia).
  assert (O1 : OFFSET_2_64 q = mont (2 ^ 64)) by reflexivity.
  destruct c as [|a [|b [|? ?]]]; cbn [length] in H; try lia.
  - pose proof (fint_small a). cbn [foldM]. unfold acc_step at 1. rewrite from_repr_small by lia. cbn [bind Nat.eqb foldM length].
    rewrite M0 at 1. rewrite mont_add. f_equal. f_equal. f_equal. unfold group3. f_equal.
    unfold pad_to. cbn [length Nat.sub repeat app as_scalar]. rewrite F0. ring.
  - pose proof (fint_small a). pose proof (fint_small b). cbn [foldM].
    unfold acc_step at 1. rewrite from_repr_small by lia. cbn [bind Nat.eqb].
    unfold acc_step at 1. rewrite from_repr_small by lia. cbn [bind Nat.eqb foldM length].
    rewrite O1, !mont_mul by lia. rewrite M0 at 1. rewrite !mont_add. f_equal. f_equal. f_equal. unfold group3. f_equal.
    unfold pad_to. cbn [length Nat.sub repeat app as_scalar]. rewrite F0. ring.
Qed.

Lemma acc_all l : forall vals3, exists s, foldM (acc_step q rinv) l (vals3, 0%Z, 0) = Ok s /\
  (let '(v, acc, n) := s in (if 0 <? n then v ++ [acc] else v)) = vals3 ++ map group3 (chunks 3 l).
Proof.
  chind 3 l; [intros vals3; eexists; split; [reflexivity|]; cbn; rewrite app_nil_r; reflexivity|].
  intros vals3. rewrite (chunks_step 3 l) by (auto; discriminate). cbn [map].
  destruct (Nat.le_gt_cases 3 (length l)) as [Q|Q].
  - destruct l as [|a [|b [|c r]]]; cbn [length] in Q; try lia. cbn [skipn] in IH. cbn [firstn skipn].
    change (a :: b :: c :: r) with ([a; b; c] ++ r). rewrite foldM_app, acc3. cbn [bind].
    destruct (IH (vals3 ++ [group3 [a; b; c]])) as (s & E1 & E2). exists s. split; [exact E1|].
    rewrite E2, <- app_assoc. reflexivity.
  - rewrite firstn_all2, skipn_all2 by lia. cbn [chunks chunks_f length map].
    assert (1 <= length l) by (destruct l; [congruence|cbn; lia]).
    rewrite acc12 by lia. eexists. split; [reflexivity|]. cbv beta iota.
    destruct (Nat.ltb_spec 0 (length l)); [reflexivity|lia].
Qed.

Theorem row_hashes_agree vals : length vals <> 4 ->
  hash_array q rinv hash_ex vals = bind (hash_matrix1 q rinv hash_ex vals) from_scalar.
Proof.
  intros H4. unfold hash_array, hash_matrix1. destruct (acc_all vals []) as (s & E1 & E2). rewrite E1. cbn [bind].
  destruct s as [[v acc] n]. rewrite E2. cbn [app].
  destruct (Nat.leb_spec (length vals) 4) as [Q|Q].
  - assert (L3 : length vals <= 3) by lia. unfold to_mont.
    rewrite from_repr_small by (apply as_scalar3; exact L3). cbn [bind]. fold (group3 vals).
    destruct vals as [|a r].
    + assert (E0 : group3 [] = 0%Z).
      { unfold group3. replace (as_scalar (pad_to 4 [])) with 0%Z by (vm_compute; reflexivity).
        unfold mont. rewrite Z.mul_0_l. apply Z.mod_0_l. lia. }
      rewrite E0. cbn [chunks chunks_f length map bind]. reflexivity.
    + set (vals := a :: r) in *. rewrite (chunks_short 3 vals) by (try discriminate; exact L3).
      cbn [map]. generalize (group3 vals). intros z. cbn [bind]. reflexivity.
  - rewrite (mapM_ok _ group3).
    2:{ intros c Hc. apply chunks_in in Hc; [|discriminate]. unfold to_q. rewrite from_repr_small by (apply as_scalar3; lia). reflexivity. }
    cbn [bind].
    assert (L2 : 2 <= length (map group3 (chunks 3 vals))).
    { rewrite map_length, chunks_len by discriminate. unfold div_ceil. assert (1 <= length vals / 3) by (apply Nat.div_le_lower_bound; lia).
      destruct (Nat.eqb_spec (length vals mod 3) 0) as [E|E]; [|lia].
      pose proof (Nat.div_mod (length vals) 3 ltac:(lia)). lia. }
    destruct (map group3 (chunks 3 vals)) as [|x [|y z]]; cbn [length] in L2; try lia. reflexivity.
Qed.

(* a row of four words: one 256-bit number when committed, two field elements hashed when opened *)
Theorem row_of_four a b c d :
  hash_array q rinv hash_ex [a; b; c; d] = to_mont q rinv [a; b; c; d] /\
  hash_matrix1 q rinv hash_ex [a; b; c; d] = hash_q [group3 [a; b; c]; group3 [d]] 0%Z.
Proof.
  split; [reflexivity|]. unfold hash_matrix1. destruct (acc_all [a; b; c; d] []) as (s & E1 & E2). rewrite E1. cbn [bind].
  destruct s as [[v acc] n]. rewrite E2. cbn [app].
  replace (chunks 3 [a; b; c; d]) with [[a; b; c]; [d]] by reflexivity. cbn [map].
  unfold hash_blocks. cbn [chunks chunks_f length firstn skipn foldM bind].
  destruct (hash_q [group3 [a; b; c]; group3 [d]] 0%Z); reflexivity.
Qed.

End Field.

(* a row of four words whose Montgomery form has a limb that is not a Goldilocks element *)
Definition bad_row : list Fr := map fof [13785817598028129536; 149001762697794716; 16735060379282532879; 1520582081559836512]%Z.

Theorem bad_row_panics hash_ex : hash_array bn_q bn_rinv hash_ex bad_row = Panic.
Proof. vm_compute. reflexivity. Qed.
