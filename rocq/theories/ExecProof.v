(* The compressor's execution file: write, read, run. *)
From Verif Require Import Base ListAux NumTheory GlModel GlProof FrField Cubic PlonkModel PlonkProof.
Open Scope nat_scope.

Definition quad (a : PlonkAdd) : list Z := [Z.of_nat (p_sl a); Z.of_nat (p_sr a); fr_to_u64 (p_kl a); fr_to_u64 (p_kr a)].
Definition flat_adds (adds : list PlonkAdd) : list Z := concat (map quad adds).
Definition cell (s_map : list (list Z)) (c i : nat) : Z := nth i (nth c s_map []) 0%Z.
Definition column (s_map : list (list Z)) (i : nat) : list Z := map (fun row => nth i row 0%Z) s_map.

Lemma quads (adds : list PlonkAdd) : Forall (fun r => length r = 4) (map quad adds).
Proof. apply Forall_forall. intros x Hx. apply in_map_iff in Hx. destruct Hx as [a [<- _]]. reflexivity. Qed.

Lemma from_raw_word (a : Fr) : fr_from_raw (fr_to_u64 a) = Ok a.
Proof.
  unfold fr_from_raw, fr_to_u64. rewrite (fok a). apply f_equal. apply fr_ext. apply fw_of_word. apply fr_fe.
Qed.

Lemma write_ok adds s_map cols : length s_map = 12 -> Forall (fun r => length r = cols) s_map ->
  write_exec adds s_map = Ok (Z.of_nat (length adds) :: Z.of_nat cols :: flat_adds adds ++ concat (map (column s_map) (seq 0 cols))).
Proof.
  intros L H. unfold write_exec. destruct s_map as [|row0 rest] eqn:E; [discriminate|].
  rewrite L. cbn [Nat.eqb negb]. assert (R0 : length row0 = cols) by (inversion H; assumption). rewrite R0. rewrite <- E in *.
  rewrite (mapM_ok _ (column s_map)).
  - cbn [bind]. rewrite flat_map_concat_map. reflexivity.
  - intros i Hi. apply in_seq in Hi. apply mapM_ok. intros row Hr. rewrite Forall_forall in H. specialize (H row Hr).
    apply vget_some. apply nth_error_nth_lt. lia.
Qed.

Lemma read_ok adds s_map cols : length s_map = 12 ->
  read_exec (Z.of_nat (length adds) :: Z.of_nat cols :: flat_adds adds ++ concat (map (column s_map) (seq 0 cols))) =
  Ok (length adds, cols, flat_adds adds, concat (map (column s_map) (seq 0 cols))).
Proof.
  intros L. unfold read_exec. rewrite !Nat2Z.id.
  assert (LF : length (flat_adds adds) = length adds * 4).
  { unfold flat_adds. rewrite (length_concat 4) by apply quads. rewrite map_length. reflexivity. }
  assert (LC : length (concat (map (column s_map) (seq 0 cols))) = cols * 12).
  { rewrite (length_concat 12); [rewrite map_length, seq_length; reflexivity|].
    apply Forall_forall. intros x Hx. apply in_map_iff in Hx. destruct Hx as [i [<- _]]. unfold column. rewrite map_length. exact L. }
  rewrite app_length, LF, LC, Nat.eqb_refl. rewrite firstn_app, skipn_app, <- LF, Nat.sub_diag.
  rewrite firstn_all, skipn_all. cbn [firstn skipn]. rewrite app_nil_r. reflexivity.
Qed.

Lemma flat_get adds i a j : nth_error adds i = Some a -> j < 4 -> vget (flat_adds adds) (i * 4 + j) = vget (quad a) j.
Proof.
  intros E Hj. unfold vget, flat_adds. rewrite (nth_concat 4) by (try apply quads; exact Hj).
  rewrite nth_error_map, E. reflexivity.
Qed.

Lemma exec_one adds i a w : nth_error adds i = Some a -> p_sl a < length w -> p_sr a < length w ->
  exec_add (flat_adds adds) w i = Ok (w ++ [fadd (fmul (wire w (p_sl a)) (p_kl a)) (fmul (wire w (p_sr a)) (p_kr a))]).
Proof.
  intros E H1 H2. unfold exec_add.
  rewrite (flat_get adds i a 2 E) by lia. cbn [vget quad nth_error bind]. rewrite from_raw_word. cbn [bind].
  rewrite (flat_get adds i a 3 E) by lia. cbn [vget quad nth_error bind]. rewrite from_raw_word. cbn [bind].
  pose proof (flat_get adds i a 0 E ltac:(lia)) as F0. rewrite Nat.add_0_r in F0. rewrite F0. cbn [vget quad nth_error bind].
  rewrite Nat2Z.id, (vget_some w _ (wire w (p_sl a))) by (apply nth_error_nth_lt; exact H1). cbn [bind].
  rewrite (flat_get adds i a 1 E) by lia. cbn [vget quad nth_error bind].
  rewrite Nat2Z.id, (vget_some w _ (wire w (p_sr a))) by (apply nth_error_nth_lt; exact H2). reflexivity.
Qed.

Lemma exec_from adds A : forall i w, (forall j a, nth_error A j = Some a -> nth_error adds (i + j) = Some a) ->
  adds_in (length w) A -> foldM (exec_add (flat_adds adds)) (seq i (length A)) w = Ok (ext w A).
Proof.
  induction A as [|a A IH]; intros i w H HI; cbn [length seq foldM]; [reflexivity|].
  destruct HI as [H1 [H2 H3]].
  rewrite (exec_one adds i a w); [|rewrite <- (H 0 a eq_refl); f_equal; lia|exact H1|exact H2]. cbn [bind].
  rewrite IH; [reflexivity| |].
  - intros j b Hj. rewrite <- (H (S j) b Hj). f_equal. lia.
  - rewrite app_length. cbn [length]. replace (length w + 1) with (S (length w)) by lia. exact H3.
Qed.

Lemma exec_adds_ok adds w : adds_in (length w) adds -> exec_adds (length adds) (flat_adds adds) w = Ok (ext w adds).
Proof. intros H. unfold exec_adds. apply exec_from; [intros j a Hj; exact Hj|exact H]. Qed.

Lemma column_get s_map cols i c : length s_map = 12 -> i < cols -> c < 12 ->
  vget (concat (map (column s_map) (seq 0 cols))) (i * 12 + c) = Ok (cell s_map c i).
Proof.
  intros L Hi Hc. apply vget_some. rewrite (nth_concat 12); [|
    apply Forall_forall; intros x Hx; apply in_map_iff in Hx; destruct Hx as [k [<- _]]; unfold column; rewrite map_length; exact L|exact Hc].
  rewrite nth_error_map. rewrite (nth_error_nth_lt (seq 0 cols) i 0) by (rewrite seq_length; exact Hi).
  rewrite seq_nth by exact Hi. cbn [option_map Nat.add]. unfold column, cell.
  rewrite nth_error_map, (nth_error_nth_lt s_map c []) by lia. reflexivity.
Qed.

Definition signal (w : list Fr) (s : Z) : Fr := if Z.eqb s 0 then f0 else wire w (Z.to_nat s).

Lemma exec_file_ok adds s_map cols N w :
  length s_map = 12 -> Forall (fun r => length r = cols) s_map -> adds_in (length w) adds -> cols <= N ->
  (forall row s, In row s_map -> In s row -> (0 <= s < Z.of_nat (length w + length adds))%Z) ->
  exists file rows, write_exec adds s_map = Ok file /\ exec_witness file N w = Ok rows /\ length rows = N /\
    (forall i c, i < cols -> c < 12 -> nth c (nth i rows []) f0 = signal (ext w adds) (cell s_map c i)) /\
    (forall i c, cols <= i < N -> c < 12 -> nth c (nth i rows []) f1 = f0).
Proof.
  intros L HR HA HN HS. rewrite (write_ok adds s_map cols L HR).
  set (sm := concat (map (column s_map) (seq 0 cols))).
  set (rows := map (fun i => map (fun c => signal (ext w adds) (cell s_map c i)) (seq 0 12)) (seq 0 cols)).
  eexists. exists (rows ++ repeat (repeat f0 12) (N - cols)). split; [reflexivity|].
  assert (LR : length rows = cols) by (unfold rows; rewrite map_length, seq_length; reflexivity).
  split; [|split; [rewrite app_length, repeat_length; lia|split]].
  - unfold exec_witness. subst sm. rewrite (read_ok adds s_map cols L). cbn [bind].
    rewrite (exec_adds_ok adds w HA). cbn [bind]. unfold exec_rows.
    replace (N <? cols) with false by (symmetry; apply Nat.ltb_ge; exact HN).
    rewrite (mapM_ok _ (fun i => map (fun c => signal (ext w adds) (cell s_map c i)) (seq 0 12))); [reflexivity|].
    intros i Hi. apply in_seq in Hi. apply mapM_ok. intros c Hc. apply in_seq in Hc. unfold exec_cell.
    rewrite (column_get s_map cols i c L) by lia. cbn [bind]. unfold signal.
    destruct (Z.eqb_spec (cell s_map c i) 0) as [E|E]; [reflexivity|].
    apply vget_some. apply nth_error_nth_lt.
    destruct (ext_prefix adds w) as [t [Et Lt]]. rewrite Et, app_length, Lt.
    assert (IN : In (nth c s_map []) s_map) by (apply nth_In; lia).
    assert (LRow : length (nth c s_map []) = cols) by (rewrite Forall_forall in HR; apply HR; exact IN).
    specialize (HS (nth c s_map []) (cell s_map c i) IN).
    assert (IN2 : In (cell s_map c i) (nth c s_map [])) by (unfold cell; apply nth_In; lia).
    specialize (HS IN2). lia.
  - intros i c Hi Hc. rewrite app_nth1 by lia. unfold rows.
    assert (X : forall (A : Type) (f : nat -> A) n k d, k < n -> nth k (map f (seq 0 n)) d = f k).
    { clear. intros A f n k d H. rewrite (nth_indep _ d (f 0)) by (rewrite map_length, seq_length; exact H).
      rewrite map_nth, seq_nth by exact H. reflexivity. }
    rewrite X by exact Hi. rewrite X by exact Hc. reflexivity.
  - intros i c Hi Hc. rewrite app_nth2 by lia. rewrite LR.
    assert (X : forall A n k (x d : A), k < n -> nth k (repeat x n) d = x).
    { clear. intros A n. induction n; intros [|k] x d H; cbn; try lia; [reflexivity|]. apply IHn. lia. }
    rewrite X by lia. apply X. exact Hc.
Qed.

Lemma additions_run r : 1 <= num_variables r -> Forall (wf_constraint (num_variables r)) (constraints r) ->
  exists pc pa, r1cs2plonk r = Ok (pc, pa) /\
    forall w, length w = num_variables r ->
      adds_in (length w) pa /\ exec_adds (length pa) (flat_adds pa) w = Ok (ext w pa).
Proof.
  intros Hn HW. destruct (r1cs2plonk_spec r Hn HW) as [pc [pa [E [HI _]]]]. exists pc, pa. split; [exact E|].
  intros w L. rewrite L. split; [exact HI|]. apply exec_adds_ok. rewrite L. exact HI.
Qed.
