(* Goldilocks Merkle tree: the stored nodes are the levels of a binary tree, whatever the number of
   workers; openings of it are accepted; two accepted openings of one shape agree or collide. *)
From Verif Require Import Base GlModel FrField ListAux HashModel HashProof.
Open Scope nat_scope.

Lemma half_bounds n : 1 <= n -> n <= 2 * half n <= n + 1 /\ 1 <= half n.
Proof.
  intros H. unfold half. pose proof (Nat.div_mod (n - 1) 2 ltac:(lia)).
  pose proof (Nat.mod_upper_bound (n - 1) 2 ltac:(lia)). lia.
Qed.

Lemma half_lt n : 2 <= n -> half n < n.
Proof. intros H. pose proof (half_bounds n ltac:(lia)). lia. Qed.

Lemma firstn_app_exact {A} (a b : list A) n : length a = n -> firstn n (a ++ b) = a.
Proof.
  intros H. rewrite firstn_app, H, Nat.sub_diag. cbn [firstn]. rewrite app_nil_r.
  apply firstn_all2. lia.
Qed.

Lemma skipn_app_exact {A} (a b : list A) n : length a = n -> skipn n (a ++ b) = b.
Proof. intros H. rewrite skipn_app, H, Nat.sub_diag. rewrite (skipn_all2 a) by lia. reflexivity. Qed.

Lemma skipn_repeat' {A} (x : A) k n : skipn k (repeat x n) = repeat x (n - k).
Proof. revert k. induction n as [|n IH]; intros [|k]; cbn; auto. Qed.

Lemma firstn_repeat' {A} (x : A) k n : k <= n -> firstn k (repeat x n) = repeat x k.
Proof. revert k. induction n as [|n IH]; intros [|k] H; cbn; auto; [lia|]. rewrite IH by lia. reflexivity. Qed.

Lemma slice_mid {A} (a b c : list A) : slice (a ++ b ++ c) (length a) (length b) = Ok b.
Proof.
  unfold slice. rewrite !app_length. destruct (Nat.leb_spec (length a + length b) (length a + (length b + length c))); [|lia].
  rewrite skipn_app_exact, firstn_app_exact by reflexivity. reflexivity.
Qed.

Section Hash.
Variable perm : list Fr -> list Fr -> list Fr.
Hypothesis perm_len : forall i s, length (perm i s) = 12.

Notation P4 := (P4 perm).
Notation lin := (lin perm).
Notation four := (fun d : list Fr => length d = 4).

(** ** levels *)

(* an inner node *)
Definition node (a b : list Fr) : list Fr := P4 (a ++ b) zero4.

Fixpoint pairs (l : list (list Fr)) : list (list Fr) :=
  match l with a :: b :: r => node a b :: pairs r | _ => [] end.

Lemma node_len a b : length (node a b) = 4.
Proof. apply (P4_len perm perm_len). Qed.

Lemma node_lin a b : length a = 4 -> length b = 4 -> lin 0 (a ++ b) = node a b.
Proof. intros Ha Hb. apply (lin8 perm perm_len). rewrite app_length. lia. Qed.

Lemma pair_ind (P : list (list Fr) -> Prop) : P [] -> (forall a, P [a]) ->
  (forall a b r, P r -> P (a :: b :: r)) -> forall l, P l.
Proof.
  intros H0 H1' H2. apply list_len_ind. intros [|a [|b r]] IH; auto. apply H2, IH. cbn. lia.
Qed.

Lemma pairs_four l : Forall four (pairs l).
Proof. induction l as [| |a b r IH] using pair_ind; cbn [pairs]; auto. constructor; auto. apply node_len. Qed.

Lemma pairs_len l n : length l = n * 2 -> length (pairs l) = n.
Proof.
  revert l. induction n as [|n IH]; intros [|a [|b r]] H; cbn in H; try lia; [reflexivity|].
  cbn [pairs length]. rewrite IH by lia. reflexivity.
Qed.

Lemma pairs_nth l i a b : nth_error l (2 * i) = Some a -> nth_error l (2 * i + 1) = Some b ->
  nth_error (pairs l) i = Some (node a b).
Proof.
  revert l. induction i as [|i IH]; intros l Ha Hb.
  - destruct l as [|x [|y r]]; cbn in Ha, Hb; try discriminate. injection Ha as ->. injection Hb as ->. reflexivity.
  - replace (2 * S i) with (S (S (2 * i))) in * by lia. cbn [Nat.add] in Hb.
    destruct l as [|x [|y r]]; cbn [nth_error] in Ha, Hb; [discriminate Ha| |].
    + destruct (2 * i); discriminate Ha.
    + cbn [pairs nth_error]. apply IH; assumption.
Qed.

Lemma do_level_eq l : Forall four l -> do_merklize_level perm l = Ok (pairs l).
Proof.
  induction l as [| |a b r IH] using pair_ind; intros HF; cbn [do_merklize_level pairs]; auto.
  apply Forall_inv in HF as Ha. apply Forall_inv_tail in HF. apply Forall_inv in HF as Hb. apply Forall_inv_tail in HF.
  rewrite (lin_hash_eq perm perm_len). cbn [unwrap bind]. rewrite node_lin by auto.
  rewrite IH by auto. reflexivity.
Qed.

Lemma pairs_app n : forall a b, length a = n * 2 -> pairs (a ++ b) = pairs a ++ pairs b.
Proof.
  induction n as [|n IH]; intros [|x [|y r]] b H; cbn in H; try lia; [reflexivity|].
  cbn [app pairs]. rewrite IH by lia. reflexivity.
Qed.

Lemma pairs_chunks per l : per <> 0 -> concat (map pairs (chunks (2 * per) l)) = pairs l.
Proof.
  intros Hp. assert (Hk : 2 * per <> 0) by lia. chind (2 * per) l; [reflexivity|].
  rewrite chunks_step by auto. cbn [map concat]. rewrite IH.
  destruct (Nat.le_gt_cases (2 * per) (length l)) as [H|H].
  - rewrite <- (pairs_app per) by (rewrite firstn_length; lia). rewrite firstn_skipn. reflexivity.
  - rewrite firstn_all2, skipn_all2 by lia. cbn [pairs]. apply app_nil_r.
Qed.

Lemma Forall_chunk k (l : list (list Fr)) c : k <> 0 -> Forall four l -> In c (chunks k l) -> Forall four c.
Proof.
  intros Hk. revert c. chind k l; [intros c _ []|]. intros c HF. rewrite chunks_step by auto.
  rewrite <- (firstn_skipn k l) in HF. apply Forall_app in HF. destruct HF as [F1 F2].
  intros [E|E]; [subst c; exact F1|]. eapply IH; eauto.
Qed.

(* one level, for every number of workers *)
Lemma level_eq workers pre lvl out rest n : workers <> 0 -> n <> 0 -> length lvl = n * 2 -> length out = n ->
  Forall four lvl ->
  merklize_level perm workers (pre ++ lvl ++ out ++ rest) (length pre) n (length pre + length lvl) =
  Ok (pre ++ lvl ++ pairs lvl ++ rest).
Proof.
  intros Hw Hn HL HO HF. unfold merklize_level.
  destruct (Nat.eqb_spec n 0); [lia|]. destruct (Nat.eqb_spec workers 0); [lia|]. cbn [orb]. cbn zeta.
  assert (Hper : Nat.max ((n - 1) / (workers * 2) + 1) MIN_OPS <> 0) by lia.
  set (per := Nat.max ((n - 1) / (workers * 2) + 1) MIN_OPS) in *. clearbody per.
  rewrite <- HL, slice_mid. cbn [bind].
  rewrite (mapM_ok _ pairs).
  2:{ intros c Hc. rewrite do_level_eq; [reflexivity|]. eapply Forall_chunk; [|exact HF|exact Hc]. lia. }
  cbn [bind]. rewrite pairs_chunks by exact Hper.
  replace (pre ++ lvl ++ out ++ rest) with ((pre ++ lvl) ++ out ++ rest) by (rewrite <- app_assoc; reflexivity).
  rewrite <- app_length.
  assert (ES : slice ((pre ++ lvl) ++ out ++ rest) (length (pre ++ lvl)) n = Ok out) by (rewrite <- HO; apply slice_mid).
  rewrite ES. cbn [bind].
  rewrite (pairs_len lvl n HL), Nat.min_id.
  rewrite firstn_app_exact by reflexivity.
  rewrite (firstn_all2 (pairs lvl)) by (rewrite (pairs_len lvl n HL); lia).
  replace (skipn (length (pre ++ lvl) + n) ((pre ++ lvl) ++ out ++ rest)) with rest.
  - rewrite <- app_assoc. reflexivity.
  - rewrite (app_assoc (pre ++ lvl)). rewrite skipn_app_exact; [reflexivity|].
    rewrite (app_length (pre ++ lvl) out). lia.
Qed.

(** ** the stored nodes *)

Definition padded (lvl : list (list Fr)) : list (list Fr) :=
  lvl ++ repeat zero4 (half (length lvl) * 2 - length lvl).

Fixpoint build (fuel : nat) (lvl : list (list Fr)) : list (list Fr) :=
  match fuel with
  | O => lvl
  | S fu => if length lvl <=? 1 then lvl else padded lvl ++ build fu (pairs (padded lvl))
  end.

(* number of stored nodes above and including a level of n digests *)
Fixpoint nstore (fuel n : nat) : nat :=
  match fuel with
  | O => n
  | S fu => if n <=? 1 then n else half n * 2 + nstore fu (half n)
  end.

Lemma padded_len lvl : lvl <> [] -> length (padded lvl) = half (length lvl) * 2.
Proof.
  intros H. unfold padded. rewrite app_length, repeat_length.
  assert (1 <= length lvl) by (destruct lvl; [congruence|cbn; lia]).
  pose proof (half_bounds (length lvl) ltac:(lia)). lia.
Qed.

Lemma four_zeros n : Forall four (repeat zero4 n).
Proof. induction n; cbn [repeat]; constructor; auto. Qed.

Lemma padded_four lvl : Forall four lvl -> Forall four (padded lvl).
Proof. intros H. apply Forall_app. split; [exact H|apply four_zeros]. Qed.

Lemma len_nonnil {A} (l : list A) : 2 <= length l -> l <> [].
Proof. destruct l; cbn; [lia|discriminate]. Qed.

Lemma up_len lvl : lvl <> [] -> length (pairs (padded lvl)) = half (length lvl).
Proof. intros H. apply pairs_len. apply padded_len; exact H. Qed.

Lemma build_len fuel : forall lvl, length lvl <= fuel -> length (build fuel lvl) = nstore fuel (length lvl).
Proof.
  induction fuel as [|fu IH]; intros lvl H; cbn [build nstore]; [reflexivity|].
  destruct (Nat.leb_spec (length lvl) 1) as [Q|Q]; [reflexivity|].
  pose proof (len_nonnil lvl ltac:(lia)) as HN. pose proof (half_lt (length lvl) ltac:(lia)).
  rewrite app_length, padded_len by auto. rewrite IH; rewrite up_len by auto; lia.
Qed.

Lemma nstore_ge fuel n : n <= fuel -> n <= nstore fuel n.
Proof.
  revert n. induction fuel as [|fu IH]; intros n H; cbn [nstore]; [lia|].
  destruct (Nat.leb_spec n 1); [lia|]. pose proof (half_bounds n ltac:(lia)). lia.
Qed.

(* room for the padding, then for the rest *)
Lemma nstore_split fuel n : 2 <= n -> n <= S fuel ->
  nstore (S fuel) n - n = (half n * 2 - n) + (half n + (nstore fuel (half n) - half n)).
Proof.
  intros H1' H2. cbn [nstore]. destruct (Nat.leb_spec n 1); [lia|].
  pose proof (half_bounds n ltac:(lia)). pose proof (half_lt n H1').
  pose proof (nstore_ge fuel (half n) ltac:(lia)). lia.
Qed.

Lemma loop_eq workers : workers <> 0 -> forall fuel pre lvl, length lvl <= fuel -> lvl <> [] -> Forall four lvl ->
  merk_loop perm (S fuel) workers (pre ++ lvl ++ repeat zero4 (nstore fuel (length lvl) - length lvl))
    (length lvl) (half (length lvl)) (length pre) (length pre + half (length lvl) * 2)
  = Ok (pre ++ build fuel lvl).
Proof.
  intros Hw. induction fuel as [|fu IH]; intros pre lvl HL HN HF.
  { destruct lvl; [congruence|cbn in HL; lia]. }
  cbn [merk_loop]. destruct (Nat.leb_spec (length lvl) 1) as [Q|Q].
  - cbn [build nstore]. destruct (Nat.leb_spec (length lvl) 1); [|lia].
    rewrite Nat.sub_diag. cbn [repeat]. rewrite app_nil_r. reflexivity.
  - pose proof (half_bounds (length lvl) ltac:(lia)) as HB. pose proof (half_lt (length lvl) ltac:(lia)) as Hlt.
    rewrite (nstore_split fu) by lia. rewrite !repeat_app.
    replace (pre ++ lvl ++ repeat zero4 (half (length lvl) * 2 - length lvl) ++
             repeat zero4 (half (length lvl)) ++ repeat zero4 (nstore fu (half (length lvl)) - half (length lvl)))
      with (pre ++ padded lvl ++ repeat zero4 (half (length lvl)) ++ repeat zero4 (nstore fu (half (length lvl)) - half (length lvl)))
      by (unfold padded; rewrite <- app_assoc; reflexivity).
    rewrite <- (padded_len lvl HN).
    rewrite (level_eq workers pre (padded lvl) (repeat zero4 (half (length lvl)))); auto; try lia;
      [|apply padded_len; exact HN|apply repeat_length|apply padded_four; exact HF].
    cbn [bind]. cbn [build]. destruct (Nat.leb_spec (length lvl) 1); [lia|].
    pose proof (up_len lvl HN) as HU.
    rewrite (app_assoc pre (padded lvl) (build _ _)).
    rewrite <- (IH (pre ++ padded lvl) (pairs (padded lvl))).
    + rewrite HU, app_length, <- app_assoc. reflexivity.
    + lia.
    + intros E. rewrite E in HU. cbn [length] in HU. lia.
    + apply pairs_four.
Qed.

Lemma n_nodes_eq fuel : forall n acc, 2 <= n -> n <= fuel ->
  n_nodes_loop fuel n (half n) acc = acc + nstore fuel (half n).
Proof.
  induction fuel as [|fu IH]; intros n acc H1' H2; [lia|]. cbn [n_nodes_loop nstore].
  destruct (Nat.leb_spec n 1); [lia|]. pose proof (half_bounds n ltac:(lia)). pose proof (half_lt n H1').
  destruct (Nat.ltb_spec 1 (half n)) as [Q|Q].
  - destruct (Nat.leb_spec (half n) 1); [lia|]. rewrite IH by lia. lia.
  - assert (E : half n = 1) by lia. rewrite E. cbn [Nat.leb].
    destruct fu; reflexivity.
Qed.

Lemma nstore_more a : forall b n, n <= a -> n <= b -> nstore a n = nstore b n.
Proof.
  induction a as [|a IH]; intros b n Ha Hb.
  - assert (n = 0) by lia. subst n. destruct b; reflexivity.
  - destruct b as [|b]; [assert (n = 0) by lia; subst n; reflexivity|]. cbn [nstore].
    destruct (Nat.leb_spec n 1); [reflexivity|]. pose proof (half_lt n ltac:(lia)).
    rewrite (IH b) by lia. reflexivity.
Qed.

Lemma get_n_nodes_eq n : 2 <= n -> get_n_nodes n = Ok (nstore n n).
Proof.
  intros H. unfold get_n_nodes. destruct (Nat.eqb_spec n 0); [lia|].
  rewrite n_nodes_eq by lia. f_equal. destruct n as [|m]; [lia|].
  pose proof (half_lt (S m) H).
  assert (E : nstore (S m) (S m) = half (S m) * 2 + nstore m (half (S m)))
    by (cbn [nstore]; destruct (Nat.leb_spec (S m) 1); [lia|reflexivity]).
  rewrite E, (nstore_more (S m) m) by lia. reflexivity.
Qed.

(** ** leaves *)

Lemma rows_chunks {A} w : w <> 0 -> forall k (bb : list A), length bb = k * w ->
  map (fun j => firstn w (skipn (j * w) bb)) (seq 0 k) = chunks w bb.
Proof.
  intros Hw. induction k as [|k IH]; intros bb H.
  - assert (bb = []) as -> by (apply length_0_nil; lia). reflexivity.
  - cbn [seq map]. assert (HN : bb <> []) by (destruct bb; [cbn in H; lia|discriminate]).
    rewrite chunks_step by auto. cbn [Nat.mul]. f_equal.
    rewrite <- (IH (skipn w bb)) by (rewrite skipn_length; lia).
    rewrite <- seq_shift, map_map. apply map_ext. intros j. rewrite skipn_skipn'. reflexivity.
Qed.

Lemma chunks_split {A} w : w <> 0 -> forall k (a b : list A), length a = k * w ->
  chunks w (a ++ b) = chunks w a ++ chunks w b.
Proof.
  intros Hw. induction k as [|k IH]; intros a b H.
  - assert (a = []) as -> by (apply length_0_nil; lia). reflexivity.
  - rewrite <- (firstn_skipn w a). rewrite <- app_assoc.
    rewrite !(chunks_exact w (firstn w a)) by (auto; rewrite firstn_length; lia).
    rewrite IH by (rewrite skipn_length; lia). reflexivity.
Qed.

Lemma hash_rows_eq w out bb k : w <> 0 -> length bb = k * w -> k <= length out ->
  hash_rows perm w (out, bb) = Ok (map (lin 0) (chunks w bb) ++ skipn k out).
Proof.
  intros Hw HL HO. unfold hash_rows. destruct (Nat.eqb_spec w 0); [lia|]. cbn zeta.
  rewrite HL, Nat.div_mul by exact Hw. rewrite Nat.min_r by lia.
  rewrite (mapM_ok _ (fun j => lin 0 (firstn w (skipn (j * w) bb)))).
  - cbn [bind]. rewrite <- (map_map (fun j => firstn w (skipn (j * w) bb)) (lin 0)).
    rewrite rows_chunks by auto. reflexivity.
  - intros j Hj. apply in_seq in Hj. unfold slice.
    destruct (Nat.leb_spec (j * w + w) (length bb)) as [Q|Q]; [|nia].
    cbn [bind]. rewrite (lin_hash_eq perm perm_len). reflexivity.
Qed.

Lemma concat_combine_cons {A} (a : A) l k : skipn (S k) (a :: l) = skipn k l.
Proof. reflexivity. Qed.

Definition leaf_core (per w : nat) (nodes : list digest) (buff : list Fr) : res (list digest) :=
  bind (mapM (hash_rows perm w) (combine (chunks per nodes) (chunks (per * w) buff)))
    (fun parts => Ok (concat parts ++ concat (skipn (length (combine (chunks per nodes) (chunks (per * w) buff))) (chunks per nodes)))).

Lemma leaf_eq per w : per <> 0 -> w <> 0 -> forall h nodes buff, length buff = h * w -> h <= length nodes ->
  leaf_core per w nodes buff = Ok (map (lin 0) (chunks w buff) ++ skipn h nodes).
Proof.
  intros Hp Hw h. induction h as [h IH] using lt_wf_ind. intros nodes buff HL HN.
  assert (Hpw : per * w <> 0) by nia. unfold leaf_core.
  destruct h as [|h0].
  - assert (buff = []) as -> by (apply length_0_nil; lia).
    rewrite !chunks_nil, combine_nil. cbn [mapM bind length skipn concat map app].
    rewrite concat_chunks by auto. reflexivity.
  - set (h := S h0) in *. assert (HB : buff <> []) by (destruct buff; [cbn in HL; nia|discriminate]).
    assert (HNN : nodes <> []) by (destruct nodes; [cbn in HN; lia|discriminate]).
    rewrite (chunks_step per nodes), (chunks_step (per * w) buff) by auto.
    cbn [combine mapM length]. rewrite concat_combine_cons.
    destruct (Nat.le_gt_cases per h) as [Q|Q].
    + rewrite (hash_rows_eq w _ _ per Hw); [|rewrite firstn_length; nia|rewrite firstn_length; lia].
      cbn [bind]. rewrite (skipn_all2 (firstn per nodes)) by (rewrite firstn_length; lia).
      assert (IH' := IH (h - per) ltac:(lia) (skipn per nodes) (skipn (per * w) buff)
        ltac:(rewrite skipn_length; nia) ltac:(rewrite skipn_length; lia)).
      unfold leaf_core in IH'.
      destruct (mapM (hash_rows perm w) (combine (chunks per (skipn per nodes)) (chunks (per * w) (skipn (per * w) buff)))) as [parts| | |];
        cbn [bind] in *; try discriminate IH'.
      assert (E : concat parts ++ concat (skipn (length (combine (chunks per (skipn per nodes)) (chunks (per * w) (skipn (per * w) buff)))) (chunks per (skipn per nodes)))
        = map (lin 0) (chunks w (skipn (per * w) buff)) ++ skipn (h - per) (skipn per nodes)) by congruence.
      cbn [concat]. rewrite app_nil_r, <- app_assoc, E, app_assoc, <- map_app. f_equal. f_equal.
      * rewrite <- (chunks_split w Hw per) by (rewrite firstn_length; nia). rewrite firstn_skipn. reflexivity.
      * rewrite skipn_skipn'. f_equal. lia.
    + rewrite (hash_rows_eq w _ _ h Hw); [|rewrite firstn_length; nia|rewrite firstn_length; lia].
      rewrite (skipn_all2 buff) by nia. rewrite chunks_nil.
      rewrite combine_nil. cbn [mapM bind length skipn concat]. rewrite app_nil_r, concat_chunks by auto.
      rewrite (firstn_all2 buff) by nia. rewrite <- app_assoc. f_equal. f_equal.
      rewrite <- (firstn_skipn per nodes) at 3. rewrite skipn_app, firstn_length.
      replace (h - Nat.min per (length nodes)) with 0 by lia. reflexivity.
Qed.


(** ** the whole tree *)

(* the leaf digests: row hashes, or zeros when there is no data *)
Definition leaves (buff : list Fr) (width height : nat) : list (list Fr) :=
  match buff with [] => repeat zero4 height | _ => map (lin 0) (chunks width buff) end.

Lemma rows_count {A} (buff : list A) w h : w <> 0 -> length buff = h * w -> length (chunks w buff) = h.
Proof.
  intros Hw H. rewrite <- (rows_chunks w Hw h buff H), map_length, seq_length. reflexivity.
Qed.

Lemma leaves_len buff w h : length buff = h * w -> length (leaves buff w h) = h.
Proof.
  intros H. unfold leaves. destruct buff as [|x b]; [apply repeat_length|].
  rewrite map_length. apply rows_count; [|exact H]. intros ->. cbn in H. lia.
Qed.

Lemma leaves_four buff w h : Forall four (leaves buff w h).
Proof.
  unfold leaves. destruct buff; [apply four_zeros|]. apply Forall_map, Forall_forall. intros r _. apply (lin_len perm perm_len).
Qed.

Lemma leaf_nodes_eq per buff w h nn : per <> 0 -> length buff = h * w -> h <= nn ->
  leaf_nodes perm per w (repeat zero4 nn) buff = Ok (leaves buff w h ++ repeat zero4 (nn - h)).
Proof.
  intros Hp HL HN. unfold leaf_nodes, leaves. destruct buff as [|x b].
  - rewrite <- repeat_app. f_equal. f_equal. lia.
  - set (buff := x :: b) in *. assert (Hw : w <> 0) by (intros ->; cbn in HL; lia).
    destruct (Nat.eqb_spec per 0); [lia|]. destruct (Nat.eqb_spec (per * w) 0); [nia|]. cbn [orb].
    change (leaf_core per w (repeat zero4 nn) buff = Ok (map (lin 0) (chunks w buff) ++ repeat zero4 (nn - h))).
    rewrite (leaf_eq per w Hp Hw h) by (auto; rewrite repeat_length; exact HN).
    rewrite skipn_repeat'. reflexivity.
Qed.

Theorem merkelize_eq workers buff w h : workers <> 0 -> 2 <= h -> length buff = h * w ->
  rows_per_thread workers w h <> 0 ->
  merkelize perm workers buff w h = Ok (mkTree buff w h (build h (leaves buff w h))).
Proof.
  intros Hw Hh HL Hper. unfold merkelize.
  destruct (Nat.eqb_spec h 0); [lia|]. destruct (Nat.eqb_spec workers 0); [lia|]. cbn [orb].
  rewrite get_n_nodes_eq by exact Hh. cbn [bind].
  rewrite (leaf_nodes_eq _ buff w h) by (auto; apply nstore_ge; lia). cbn [bind].
  pose proof (leaves_len buff w h HL) as HLL.
  pose proof (loop_eq workers Hw h [] (leaves buff w h) ltac:(lia) ltac:(apply len_nonnil; lia) (leaves_four buff w h)) as E.
  rewrite HLL in E. cbn [app length Nat.add] in E. rewrite E. reflexivity.
Qed.

(** ** openings *)

Fixpoint top (fuel : nat) (lvl : list (list Fr)) : list Fr :=
  match fuel with
  | O => hd zero4 lvl
  | S fu => if length lvl <=? 1 then hd zero4 lvl else top fu (pairs (padded lvl))
  end.

Lemma build_last fuel : forall lvl, length lvl <= fuel -> lvl <> [] ->
  nth_error (build fuel lvl) (length (build fuel lvl) - 1) = Some (top fuel lvl).
Proof.
  induction fuel as [|fu IH]; intros lvl HL HN; [destruct lvl; [congruence|cbn in HL; lia]|].
  cbn [build top]. destruct (Nat.leb_spec (length lvl) 1) as [Q|Q].
  - destruct lvl as [|x [|y r]]; cbn in *; [congruence|reflexivity|lia].
  - pose proof (half_lt (length lvl) ltac:(lia)). pose proof (half_bounds (length lvl) ltac:(lia)). pose proof (up_len lvl HN) as HU.
    assert (HN' : pairs (padded lvl) <> []) by (intros E; rewrite E in HU; cbn in HU; lia).
    assert (HL' : length (pairs (padded lvl)) <= fu) by lia.
    specialize (IH (pairs (padded lvl)) HL' HN').
    assert (HP : length (build fu (pairs (padded lvl))) <> 0).
    { intros E. rewrite E in IH. apply length_0_nil in E. rewrite E in IH. discriminate IH. }
    rewrite app_length. rewrite nth_error_app2 by lia.
    replace (length (padded lvl) + length (build fu (pairs (padded lvl))) - 1 - length (padded lvl))
      with (length (build fu (pairs (padded lvl))) - 1) by lia. exact IH.
Qed.

Lemma lxor_even i : Nat.lxor (2 * i) 1 = 2 * i + 1.
Proof.
  apply Nat.bits_inj. intros [|n].
  - rewrite Nat.lxor_spec, Nat.testbit_even_0, Nat.testbit_odd_0. reflexivity.
  - rewrite Nat.lxor_spec, Nat.testbit_even_succ, Nat.testbit_odd_succ by lia.
    change 1 with (2 * 0 + 1). rewrite Nat.testbit_odd_succ by lia.
    rewrite Nat.bits_0. apply xorb_false_r.
Qed.

Lemma lxor_odd i : Nat.lxor (2 * i + 1) 1 = 2 * i.
Proof.
  rewrite <- (lxor_even i), Nat.lxor_assoc, Nat.lxor_nilpotent. apply Nat.lxor_0_r.
Qed.

Lemma idx_cases idx : idx = 2 * (idx / 2) /\ Nat.even idx = true \/ idx = 2 * (idx / 2) + 1 /\ Nat.even idx = false.
Proof.
  pose proof (Nat.div_mod idx 2 ltac:(lia)) as E. pose proof (Nat.mod_upper_bound idx 2 ltac:(lia)).
  destruct (Nat.eq_dec (idx mod 2) 0) as [Q|Q].
  - left. split; [lia|]. rewrite E, Q, Nat.add_0_r. apply Nat.even_spec. exists (idx / 2). reflexivity.
  - right. split; [lia|]. replace idx with (2 * (idx / 2) + 1) by lia.
    rewrite Nat.add_comm, Nat.even_add_mul_2. reflexivity.
Qed.

Lemma opening_ok fuel : forall pre lvl idx v, length lvl <= fuel -> Forall four lvl ->
  nth_error lvl idx = Some v ->
  exists mp, gen_proof (S fuel) (pre ++ build fuel lvl) idx (length pre) (length lvl) = Ok mp /\
             Forall four mp /\
             root_from_proof perm mp idx v = Ok (top fuel lvl).
Proof.
  induction fuel as [|fu IH]; intros pre lvl idx v HL HF HV.
  { destruct lvl; [destruct idx; discriminate HV|cbn in HL; lia]. }
  assert (HI : idx < length lvl) by (apply nth_error_Some; congruence).
  assert (HN : lvl <> []) by (intros ->; cbn in HI; lia).
  remember (S fu) as sf eqn:Esf. cbn [gen_proof]. subst sf. cbn [build top].
  destruct (Nat.leb_spec (length lvl) 1) as [Q|Q].
  - exists []. split; [reflexivity|]. split; [constructor|]. cbn [root_from_proof]. f_equal.
    destruct lvl as [|x r]; [congruence|]. destruct idx as [|i]; [injection HV as ->; reflexivity|]. cbn in HI, Q. lia.
  - pose proof (half_lt (length lvl) ltac:(lia)) as Hlt. pose proof (half_bounds (length lvl) ltac:(lia)) as HB.
    pose proof (up_len lvl HN) as HU. pose proof (padded_len lvl HN) as HPL. pose proof (padded_four lvl HF) as HPF.
    assert (HV' : nth_error (padded lvl) idx = Some v) by (unfold padded; rewrite nth_error_app1 by exact HI; exact HV).
    set (si := Nat.lxor idx 1).
    assert (HS : si < length (padded lvl) /\ si / 2 = idx / 2).
    { unfold si. destruct (idx_cases idx) as [[E _]|[E _]].
      - rewrite E, lxor_even. split; [lia|]. rewrite Nat.mul_comm, Nat.div_add_l, Nat.div_mul by lia. cbn. lia.
      - rewrite E, lxor_odd. split; [lia|]. rewrite Nat.mul_comm, Nat.div_mul, Nat.div_add_l by lia. cbn. lia. }
    destruct HS as [HS _].
    destruct (nth_error (padded lvl) si) as [s|] eqn:ES; [|apply nth_error_None in ES; lia].
    assert (Fs : length s = 4) by exact (proj1 (Forall_forall _ _) HPF s (nth_error_In _ _ ES)).
    assert (Fv : length v = 4) by exact (proj1 (Forall_forall _ _) HF v (nth_error_In _ _ HV)).
    assert (EN : nth_error (pairs (padded lvl)) (idx / 2) = Some (if Nat.even idx then node v s else node s v)).
    { unfold si in ES. destruct (idx_cases idx) as [[E1 E2]|[E1 E2]]; rewrite E2.
      - apply pairs_nth; [rewrite <- E1; exact HV'|]. rewrite E1, lxor_even in ES. exact ES.
      - apply pairs_nth; [|rewrite <- E1; exact HV']. rewrite E1, lxor_odd in ES. exact ES. }
    destruct (IH (pre ++ padded lvl) (pairs (padded lvl)) (idx / 2) _ ltac:(lia) (pairs_four _) EN) as (mp & E1 & E2 & E3).
    exists (s :: mp). split; [|split].
    + rewrite (vget_some _ _ s).
      2:{ rewrite nth_error_app2 by lia. rewrite Nat.add_comm, Nat.add_sub. rewrite nth_error_app1 by exact HS. exact ES. }
      cbn [bind]. rewrite HU, app_length, HPL, <- app_assoc in E1. rewrite E1. reflexivity.
    + constructor; auto.
    + cbn [root_from_proof]. unfold slice. rewrite Fs. cbn [Nat.leb Nat.add bind skipn].
      rewrite (firstn_all2 s) by lia.
      assert (E4 : poseidon_hash perm (if Nat.even idx then v ++ s else s ++ v) zero4 4
        = Ok (if Nat.even idx then node v s else node s v)).
      { destruct (Nat.even idx); rewrite poseidon_ok; try reflexivity; rewrite app_length; lia. }
      rewrite E4. cbn [bind]. exact E3.
Qed.

Lemma mapM_row (l : list Fr) w idx : (idx + 1) * w <= length l ->
  mapM (fun i => vget l (w * idx + i)) (seq 0 w) = Ok (firstn w (skipn (idx * w) l)).
Proof.
  intros H. rewrite (mapM_ok _ (fun i => nth (w * idx + i) l f0)).
  - f_equal. apply nth_error_ext_len.
    + rewrite map_length, seq_length, firstn_length, skipn_length. nia.
    + intros i Hi. rewrite map_length, seq_length in Hi.
      rewrite nth_error_map, (nth_error_nth_lt _ _ 0) by (rewrite seq_length; exact Hi).
      rewrite seq_nth by exact Hi. cbn [option_map Nat.add].
      rewrite (nth_error_nth_lt _ i f0) by (rewrite firstn_length, skipn_length; nia).
      f_equal. rewrite nth_firstn_lt by exact Hi. rewrite nth_skipn'. f_equal. lia.
  - intros i Hi. apply in_seq in Hi. apply vget_some. apply nth_error_nth_lt. nia.
Qed.

Lemma leaf_nth buff w h idx : length buff = h * w -> idx < h ->
  nth_error (leaves buff w h) idx = Some (lin 0 (firstn w (skipn (idx * w) buff))).
Proof.
  intros HL HI. unfold leaves. destruct buff as [|x b].
  - rewrite (nth_error_nth_lt _ _ zero4) by (rewrite repeat_length; exact HI).
    rewrite nth_repeat, skipn_nil, firstn_nil. reflexivity.
  - set (buff := x :: b) in *. assert (Hw : w <> 0) by (intros ->; cbn in HL; lia).
    rewrite nth_error_map, <- (rows_chunks w Hw h buff HL), nth_error_map.
    rewrite (nth_error_nth_lt _ _ 0) by (rewrite seq_length; exact HI). rewrite seq_nth by exact HI. reflexivity.
Qed.

Theorem complete workers buff w h t idx : 2 <= h -> length buff = h * w ->
  merkelize perm workers buff w h = Ok t -> idx < h ->
  exists mp r, get_group_proof t idx = Ok (firstn w (skipn (idx * w) buff), mp) /\ tree_root t = Ok r /\
    verify_group_proof perm r mp idx (firstn w (skipn (idx * w) buff)) = Ok true.
Proof.
  intros Hh HL HM HI.
  assert (Hw : workers <> 0).
  { intros ->. unfold merkelize in HM. rewrite orb_true_r in HM. discriminate HM. }
  assert (HT : t = mkTree buff w h (build h (leaves buff w h))).
  { destruct (Nat.eq_dec (rows_per_thread workers w h) 0) as [E|E].
    - destruct buff as [|x b].
      + (* no data: the per-thread count is not used *)
        unfold merkelize in HM. destruct (Nat.eqb_spec h 0); [lia|]. destruct (Nat.eqb_spec workers 0); [lia|].
        cbn [orb] in HM. rewrite get_n_nodes_eq in HM by exact Hh. cbn [bind leaf_nodes] in HM.
        pose proof (loop_eq workers Hw h [] (leaves [] w h) ltac:(rewrite leaves_len; auto; lia)
          ltac:(apply len_nonnil; rewrite leaves_len by exact HL; lia) (leaves_four [] w h)) as EL.
        rewrite (leaves_len [] w h HL) in EL. cbn [app length Nat.add leaves] in EL.
        rewrite <- repeat_app in EL.
        replace (h + (nstore h h - h)) with (nstore h h) in EL by (pose proof (nstore_ge h h); lia).
        rewrite EL in HM. cbn [bind] in HM. cbn [leaves]. congruence.
      + unfold merkelize in HM. destruct (Nat.eqb_spec h 0); [lia|]. destruct (Nat.eqb_spec workers 0); [lia|].
        cbn [orb] in HM. rewrite get_n_nodes_eq in HM by exact Hh. cbn [bind leaf_nodes] in HM.
        rewrite E in HM. cbn [Nat.eqb orb bind] in HM. discriminate HM.
    - rewrite merkelize_eq in HM by auto. congruence. }
  subst t. pose proof (leaves_len buff w h HL) as HLL.
  destruct (opening_ok h [] (leaves buff w h) idx _ ltac:(lia) (leaves_four buff w h) (leaf_nth buff w h idx HL HI))
    as (mp & E1 & E2 & E3).
  exists mp, (top h (leaves buff w h)). split; [|split].
  - unfold get_group_proof. cbn [t_height t_elements t_width t_nodes].
    destruct (Nat.leb_spec h idx); [lia|]. rewrite mapM_row by nia. cbn [bind].
    rewrite HLL in E1. cbn [app length] in E1. rewrite E1. reflexivity.
  - unfold tree_root. cbn [t_nodes].
    pose proof (build_last h (leaves buff w h) ltac:(lia) ltac:(apply len_nonnil; lia)) as EL.
    destruct (build h (leaves buff w h)) eqn:EB; [discriminate EL|]. rewrite <- EB in *.
    apply vget_some. exact EL.
  - unfold verify_group_proof, root_from_group_proof. rewrite (lin_hash_eq perm perm_len). cbn [bind].
    rewrite E3. cbn [bind]. f_equal. apply list_eqb_eq. reflexivity.
Qed.

Theorem refuses t idx : t_height t <= idx -> get_group_proof t idx = Err.
Proof. intros H. unfold get_group_proof. destruct (Nat.leb_spec (t_height t) idx); [reflexivity|lia]. Qed.

(* a tree of one row: the root is the zero digest whatever the row *)
Theorem single_row workers buff w t : length buff = w -> merkelize perm workers buff w 1 = Ok t ->
  tree_root t = Ok zero4 /\ get_group_proof t 0 = Ok (buff, []) /\
  verify_group_proof perm zero4 [] 0 buff = Ok (list_eqb zero4 (lin 0 buff)).
Proof.
  intros HL HM.
  assert (HN : exists d, t = mkTree buff w 1 [d; zero4]).
  { unfold merkelize in HM. cbn [Nat.eqb orb] in HM. destruct (Nat.eqb_spec workers 0); [discriminate HM|].
    cbn [get_n_nodes n_nodes_loop Nat.eqb Nat.leb bind] in HM.
    replace (half 1 * 2) with 2 in HM by reflexivity.
    destruct (Nat.eq_dec (rows_per_thread workers w 1) 0) as [E|E].
    - rewrite E in HM. destruct buff as [|x b]; [|discriminate HM]. cbn [leaf_nodes bind repeat merk_loop Nat.leb] in HM.
      exists zero4. congruence.
    - rewrite (leaf_nodes_eq _ buff w 1) in HM by (auto; lia). cbn [bind] in HM.
      pose proof (leaves_len buff w 1 ltac:(lia)) as HLL.
      destruct (leaves buff w 1) as [|d [|]]; try discriminate HLL.
      cbn [repeat Nat.sub app merk_loop Nat.leb bind] in HM. exists d. congruence. }
  destruct HN as [d ->]. split; [reflexivity|]. split.
  - unfold get_group_proof. cbn [t_height t_elements t_width t_nodes Nat.leb].
    rewrite mapM_row by lia. cbn [Nat.mul skipn]. rewrite firstn_all2 by lia. reflexivity.
  - unfold verify_group_proof, root_from_group_proof. rewrite (lin_hash_eq perm perm_len). reflexivity.
Qed.

Theorem merkelize_total workers buff w h : workers <> 0 -> 2 <= h -> length buff = h * w ->
  w / 8 <= MAX_OPS -> exists t, merkelize perm workers buff w h = Ok t.
Proof.
  intros Hw Hh HL HM. eexists. apply merkelize_eq; auto.
  unfold rows_per_thread.
  assert (D : 1 <= MAX_OPS / Nat.max (w / 8) 1).
  { apply Nat.div_le_lower_bound; [lia|]. rewrite Nat.mul_1_r. apply Nat.max_lub; [exact HM|].
    apply Nat.leb_le. vm_compute. reflexivity. }
  set (M := MAX_OPS / Nat.max (w / 8) 1) in *. clearbody M.
  set (m := MIN_OPS / Nat.max (w / 8) 1). clearbody m. lia.
Qed.

Theorem workers_irrelevant w1 w2 buff w h t1 t2 : 2 <= h -> length buff = h * w ->
  rows_per_thread w1 w h <> 0 -> rows_per_thread w2 w h <> 0 ->
  merkelize perm w1 buff w h = Ok t1 -> merkelize perm w2 buff w h = Ok t2 -> t1 = t2.
Proof.
  intros Hh HL R1 R2 H1' H2.
  assert (W1 : w1 <> 0) by (intros ->; unfold merkelize in H1'; rewrite orb_true_r in H1'; discriminate H1').
  assert (W2 : w2 <> 0) by (intros ->; unfold merkelize in H2; rewrite orb_true_r in H2; discriminate H2).
  rewrite merkelize_eq in H1' by auto. rewrite merkelize_eq in H2 by auto. congruence.
Qed.

(** ** binding *)

(* the Poseidon calls of merkle_calculate_root_from_proof *)
Fixpoint path_calls (mp : list (list Fr)) (idx : nat) (value : list Fr) : list call :=
  match mp with
  | [] => []
  | s :: mp' =>
    let inp := if Nat.even idx then value ++ firstn 4 s else firstn 4 s ++ value in
    (inp, zero4) :: path_calls mp' (idx / 2) (P4 inp zero4)
  end.

(* the calls of one verification *)
Definition opening_calls (mp : list (list Fr)) (idx : nat) (vals : list Fr) : list call :=
  lin_calls perm 0 vals ++ path_calls mp idx (lin 0 vals).

Lemma root_step s mp idx v r : length v = 4 -> root_from_proof perm (s :: mp) idx v = Ok r ->
  4 <= length s /\
  root_from_proof perm mp (idx / 2) (P4 (if Nat.even idx then v ++ firstn 4 s else firstn 4 s ++ v) zero4) = Ok r.
Proof.
  intros Hv H. cbn [root_from_proof] in H. unfold slice in H. cbn [Nat.add skipn] in H.
  destruct (Nat.leb_spec 4 (length s)) as [Q|Q]; [|discriminate H]. split; [exact Q|]. cbn [bind] in H.
  assert (F4 : length (firstn 4 s) = 4) by (rewrite firstn_length; lia).
  rewrite poseidon_ok in H; [exact H| |reflexivity].
  destruct (Nat.even idx); rewrite app_length; lia.
Qed.

Lemma path_bind mp : forall mp' idx v v' r, length mp = length mp' -> length v = 4 -> length v' = 4 ->
  root_from_proof perm mp idx v = Ok r -> root_from_proof perm mp' idx v' = Ok r ->
  (v = v' /\ map (firstn 4) mp = map (firstn 4) mp') \/
  collision_in perm (path_calls mp idx v) (path_calls mp' idx v').
Proof.
  induction mp as [|s mp IH]; intros [|s' mp'] idx v v' r HL Hv Hv' E E'; cbn in HL; try lia.
  - cbn in E, E'. left. split; [congruence|reflexivity].
  - apply root_step in E; auto. apply root_step in E'; auto. destruct E as [Hs E], E' as [Hs' E'].
    set (i1 := if Nat.even idx then v ++ firstn 4 s else firstn 4 s ++ v) in *.
    set (i2 := if Nat.even idx then v' ++ firstn 4 s' else firstn 4 s' ++ v') in *.
    destruct (IH mp' (idx / 2) (P4 i1 zero4) (P4 i2 zero4) r ltac:(lia) (P4_len perm perm_len _ _) (P4_len perm perm_len _ _) E E') as [[Q1 Q2]|C].
    + destruct (fr_list_dec i1 i2) as [D|D].
      * left. assert (v = v' /\ firstn 4 s = firstn 4 s').
        { unfold i1, i2 in D. destruct (Nat.even idx).
          - apply app_eq_len in D; [tauto|lia].
          - apply app_eq_len in D; [tauto|rewrite !firstn_length; lia]. }
        destruct H as [D1 D2]. cbn [map]. rewrite Q2, D2. auto.
      * right. exists (i1, zero4), (i2, zero4). cbn [path_calls]. fold i1 i2. split; [left; reflexivity|]. split; [left; reflexivity|].
        split; [congruence|]. cbn [fst snd]. exact Q1.
    + right. cbn [path_calls]. fold i1 i2. cbn zeta.
      eapply collision_mono; [| |exact C]; intros c Hc; right; exact Hc.
Qed.

Theorem binding root mp mp' idx vals vals' : length vals = length vals' -> length mp = length mp' ->
  verify_group_proof perm root mp idx vals = Ok true -> verify_group_proof perm root mp' idx vals' = Ok true ->
  (vals = vals' /\ map (firstn 4) mp = map (firstn 4) mp') \/
  collision_in perm (opening_calls mp idx vals) (opening_calls mp' idx vals').
Proof.
  intros HV HM H1' H2. unfold verify_group_proof, root_from_group_proof in *.
  rewrite (lin_hash_eq perm perm_len) in H1', H2. cbn [bind] in *.
  destruct (root_from_proof perm mp idx (lin 0 vals)) as [r| | |] eqn:E1; try discriminate H1'.
  destruct (root_from_proof perm mp' idx (lin 0 vals')) as [r'| | |] eqn:E2; try discriminate H2.
  cbn [bind] in *. assert (B1 : list_eqb root r = true) by congruence. assert (B2 : list_eqb root r' = true) by congruence.
  apply list_eqb_eq in B1. apply list_eqb_eq in B2. subst r r'.
  destruct (path_bind mp mp' idx _ _ root HM (lin_len perm perm_len 0 vals) (lin_len perm perm_len 0 vals') E1 E2) as [[Q1 Q2]|C].
  - destruct (lin_bind perm perm_len 0 vals vals' HV Q1) as [->|C]; [left; auto|].
    right. eapply collision_mono; [| |exact C]; intros c Hc; apply in_or_app; auto.
  - right. eapply collision_mono; [| |exact C]; intros c Hc; apply in_or_app; auto.
Qed.

(* the length of the path is not checked: an inner node passes for a row of eight words *)
Theorem node_as_row root s mp idx vals : length s = 4 ->
  verify_group_proof perm root (s :: mp) (2 * idx) vals = Ok true ->
  verify_group_proof perm root mp idx (lin 0 vals ++ s) = Ok true.
Proof.
  intros Hs H. unfold verify_group_proof, root_from_group_proof in *.
  rewrite (lin_hash_eq perm perm_len) in *. cbn [bind] in *.
  pose proof (lin_len perm perm_len 0 vals) as HL.
  rewrite node_lin by auto.
  destruct (root_from_proof perm (s :: mp) (2 * idx) (lin 0 vals)) as [r| | |] eqn:E; try discriminate H.
  apply root_step in E; [|exact HL]. destruct E as [_ E].
  replace (Nat.even (2 * idx)) with true in E by (symmetry; apply Nat.even_spec; exists idx; reflexivity).
  rewrite (Nat.mul_comm 2), Nat.div_mul in E by lia. rewrite (firstn_all2 s) in E by lia.
  unfold node. rewrite E. exact H.
Qed.

End Hash.

Theorem inner_node_opens (perm : list Fr -> list Fr -> list Fr) (perm_len : forall i s, length (perm i s) = 12) root s mp idx vals d :
  length s = 4 -> lin_hash perm vals 0 = Ok d ->
  verify_group_proof perm root (s :: mp) (2 * idx) vals = Ok true ->
  verify_group_proof perm root mp idx (d ++ s) = Ok true.
Proof.
  intros Hs E H. rewrite (lin_hash_eq perm perm_len) in E. assert (d = lin perm 0 vals) by congruence. subst d.
  apply node_as_row; assumption.
Qed.

Theorem single_row_fails (perm : list Fr -> list Fr -> list Fr) (perm_len : forall i s, length (perm i s) = 12) workers buff w t d :
  length buff = w -> merkelize perm workers buff w 1 = Ok t -> lin_hash perm buff 0 = Ok d -> d <> zero4 ->
  exists r mp, tree_root t = Ok r /\ get_group_proof t 0 = Ok (buff, mp) /\ verify_group_proof perm r mp 0 buff = Ok false.
Proof.
  intros HL HM E Hd. destruct (single_row perm perm_len workers buff w t HL HM) as (A & B & C).
  exists zero4, []. split; [exact A|]. split; [exact B|]. rewrite C. f_equal.
  rewrite (lin_hash_eq perm perm_len) in E. assert (d = lin perm 0 buff) by congruence. subst d.
  destruct (list_eqb zero4 (lin perm 0 buff)) eqn:Q; [|reflexivity]. apply list_eqb_eq in Q. congruence.
Qed.
