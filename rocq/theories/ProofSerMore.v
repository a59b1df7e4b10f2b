(* Reading a proof that lacks a tree of the first step. *)
From Coq Require Import String Ascii.
From Verif Require Import Base ListAux GlModel FrField F3gModel HashModel BnModel SerModel SerProof JoinProof ProofSer.
Open Scope Z_scope.
Open Scope res_scope.

Definition without (key : text) (m : list (text * json)) : list (text * json) :=
  filter (fun e => negb (text_eqb (fst e) key)) m.
Definition tree_names : list string := ["1"; "2"; "3"; "4"; "C"]%string.

Lemma text_eqb_sym a : forall b, text_eqb a b = text_eqb b a.
Proof. induction a as [|x a IH]; intros [|y b]; cbn [text_eqb]; auto. rewrite IH, Z.eqb_sym. reflexivity. Qed.
Lemma without_same m key : jget (without key m) key = None.
Proof.
  apply jget_none. apply Forall_forall. intros e H. apply filter_In in H. destruct H as [_ H].
  destruct (text_eqb (fst e) key); [discriminate H|reflexivity].
Qed.
Lemma text_eqb_trans a : forall b c, text_eqb a b = true -> text_eqb a c = true -> text_eqb b c = true.
Proof.
  induction a as [|x a IH]; intros [|y b] [|z c]; cbn [text_eqb]; try discriminate; auto. intros H1 H2.
  apply andb_prop in H1, H2. destruct H1 as [A B]; destruct H2 as [C D]. apply Z.eqb_eq in A, C. subst. rewrite Z.eqb_refl. cbn. eauto.
Qed.
Lemma without_other m key key' : text_eqb key key' = false -> jget (without key m) key' = jget m key'.
Proof.
  intros H. induction m as [|[n v] m IH]; [reflexivity|]. unfold without in *. cbn [filter fst]. cbn [jget].
  destruct (text_eqb n key) eqn:E; cbn [negb].
  - rewrite IH. replace (text_eqb n key') with false; [destruct (jget m key'); reflexivity|].
    symmetry. destruct (text_eqb n key') eqn:E2; [|reflexivity]. rewrite (text_eqb_trans n key key' E E2) in H. discriminate H.
  - cbn [jget]. rewrite IH. reflexivity.
Qed.
Lemma field_other {A} m key key' (de : json -> res A) : text_eqb key key' = false -> field (without key m) key' de = field m key' de.
Proof. intros H. unfold field, jneed. rewrite (without_other m key key' H). reflexivity. Qed.

Section Drop.
Variables (MB : Type) (to_bf : digest -> MB) (k : kind).
Variable m : list (text * json).
Variable j : string.
Let key := str "s0_vals" ++ str j.

Lemma key_plain : plain key. Proof. unfold key. exact (plain_s0 _). Qed.
Lemma num_query_drop : num_query (without key m) = num_query m.
Proof.
  unfold num_query. f_equal. apply map_ext_in. intros i Hi. apply in_seq in Hi.
  rewrite without_other; [reflexivity|]. apply key_plain. lia.
Qed.
Lemma de_step_drop nq i : (1 <= i)%nat -> de_step MB to_bf k (without key m) nq i = de_step MB to_bf k m nq i.
Proof. intros Hi. unfold de_step. rewrite !field_other by (apply key_plain; exact Hi). reflexivity. Qed.
Lemma steps_drop nq n : mapM (de_step MB to_bf k (without key m) nq) (seq 1 n) = mapM (de_step MB to_bf k m nq) (seq 1 n).
Proof.
  assert (G : forall n a, (1 <= a)%nat -> mapM (de_step MB to_bf k (without key m) nq) (seq a n) = mapM (de_step MB to_bf k m nq) (seq a n)).
  { clear n. intros n. induction n as [|n IH]; intros a Ha; [reflexivity|]. cbn [seq mapM]. rewrite de_step_drop by exact Ha.
    rewrite IH by lia. reflexivity. }
  apply G. lia.
Qed.
Lemma de_s0_drop : de_s0 k (without key m) j = Ok ([], []).
Proof. unfold de_s0. fold key. rewrite without_same. reflexivity. Qed.
Lemma de_s0_other j' : text_eqb key (str "s0_vals" ++ str j') = false -> text_eqb key (str "s0_siblings" ++ str j') = false ->
  de_s0 k (without key m) j' = de_s0 k m j'.
Proof. intros H1 H2. unfold de_s0. rewrite without_other by exact H1. rewrite field_other by exact H2. reflexivity. Qed.
End Drop.

Definition blank {A} (c : nat) (row : list A) (x : A) : list A := firstn c row ++ x :: skipn (S c) row.
(* the proof with the openings of tree [c] empty *)
Definition blanked {MB} (c : nat) (p : proof MB) : proof MB :=
  mkP MB (root1 MB p) (root2 MB p) (root3 MB p) (root4 MB p)
    (match queries MB p with
     | q :: r => mkQ MB (map (fun row => blank c row ([], [])) (pol_queries MB q)) (q_root MB q) :: r
     | [] => [] end)
    (last_pol MB p) (evals MB p) (publics MB p) (rootC MB p) (prover_addr MB p).

Ltac bb H := match type of H with bind ?a _ = Ok _ => let E := fresh "E" in let x := fresh "x" in destruct a as [x| | |] eqn:E; cbn [bind] in H; try discriminate H end.

Lemma row_empty MB (to_bf : digest -> MB) nq i : (i < nq)%nat -> row_of MB to_bf (fill nq ([], [])) i = Ok ([], []).
Proof.
  intros Hi. unfold fill. cbn [fst snd length]. replace (0 <? nq)%nat with true by (symmetry; apply Nat.ltb_lt; lia).
  unfold row_of, resize. cbn [fst snd length]. rewrite !firstn_nil, Nat.sub_0_r. cbn [app].
  assert (R : forall X, vget (repeat (@nil X) nq) i = Ok []) by (intros X; apply vget_some; apply nth_error_repeat; exact Hi).
  rewrite !R. reflexivity.
Qed.

Lemma rows_drop MB (to_bf : digest -> MB) trees c nq : (c < length trees)%nat -> forall idx rows, (forall i, In i idx -> (i < nq)%nat) ->
  mapM (fun i => mapM (fun t => row_of MB to_bf (fill nq t) i) trees) idx = Ok rows ->
  mapM (fun i => mapM (fun t => row_of MB to_bf (fill nq t) i) (blank c trees ([], []))) idx = Ok (map (fun row => blank c row ([], [])) rows).
Proof.
  intros Hc. induction idx as [|i idx IH]; intros rows Hi H; cbn [mapM] in *; [injection H as <-; reflexivity|].
  bb H. bb H. injection H as <-. cbn [map].
  assert (R : mapM (fun t => row_of MB to_bf (fill nq t) i) (blank c trees ([], [])) = Ok (blank c x ([], []))).
  { clear - E Hi Hc. specialize (Hi i (or_introl eq_refl)). revert trees x E Hc. unfold blank. induction c as [|c IH]; intros [|t ts] x E Hc; cbn [length] in Hc; try lia.
    - cbn [mapM] in E. bb E. bb E. injection E as <-. cbn [firstn app skipn mapM]. rewrite row_empty by exact Hi. cbn [bind]. rewrite E1. reflexivity.
    - cbn [mapM] in E. bb E. bb E. injection E as <-. change (firstn (S c) (t :: ts)) with (t :: firstn c ts). cbn [app mapM]. rewrite E0. cbn [bind].
      change (skipn (S (S c)) (t :: ts)) with (skipn (S c) ts). rewrite (IH ts _ E1) by lia. reflexivity. }
  rewrite R. cbn [bind]. rewrite (IH x0 (fun i0 Hi0 => Hi i0 (or_intror Hi0)) eq_refl). reflexivity.
Qed.

Theorem missing_tree (MB : Type) to_bf k m c j p : (1 <= c)%nat -> nth_error tree_names c = Some j ->
  de_proof MB to_bf k (JObj m) = Ok p -> de_proof MB to_bf k (JObj (without (str "s0_vals" ++ str j) m)) = Ok (blanked c p).
Proof.
  intros Hc Hj H. unfold de_proof in *.
  assert (Ne : forall key', hd 0 key' <> 115 -> text_eqb (str "s0_vals" ++ str j) key' = false).
  { intros [|x r] X; [reflexivity|]. change (str "s0_vals" ++ str j) with (115 :: (str "0_vals" ++ str j)). cbn [text_eqb hd] in *.
    destruct (Z.eqb_spec 115 x); [congruence|reflexivity]. }
  rewrite !field_other by (apply Ne; vm_compute; congruence).
  rewrite !(without_other m (str "s0_vals" ++ str j)) by (apply Ne; vm_compute; congruence).
  rewrite num_query_drop. do 8 bb H. cbv zeta in *. bb H.
  assert (T : mapM (de_s0 k (without (str "s0_vals" ++ str j) m)) tree_names = Ok (blank c x7 ([], []))).
  { unfold tree_names in *. cbn [mapM] in E7.
    destruct (de_s0 k m "1") as [y1| | |] eqn:E8; cbn [bind] in E7; try discriminate E7.
    destruct (de_s0 k m "2") as [y2| | |] eqn:E9; cbn [bind] in E7; try discriminate E7.
    destruct (de_s0 k m "3") as [y3| | |] eqn:E10; cbn [bind] in E7; try discriminate E7.
    destruct (de_s0 k m "4") as [y4| | |] eqn:E11; cbn [bind] in E7; try discriminate E7.
    destruct (de_s0 k m "C") as [y5| | |] eqn:E12; cbn [bind] in E7; try discriminate E7. injection E7 as <-.
    destruct c as [|[|[|[|[|c]]]]]; [lia| | | | |destruct c; discriminate Hj]; injection Hj as <-; cbn [mapM];
      rewrite de_s0_drop; repeat (rewrite de_s0_other by (vm_compute; reflexivity)); rewrite ?E8, ?E9, ?E10, ?E11, ?E12; reflexivity. }
  unfold tree_names in T. rewrite T. cbn [bind].
  assert (LT : length x7 = 5%nat) by (rewrite (mapM_len _ _ _ E7); reflexivity).
  assert (V0 : vget (blank c x7 ([], [])) 0 = vget x7 0) by (unfold blank; destruct c; [lia|]; destruct x7; [discriminate LT|reflexivity]).
  rewrite V0. do 3 bb H. bb H. injection H as <-. cbn [bind].
  assert (CL : (c < length x7)%nat).
  { rewrite LT. unfold tree_names in Hj. destruct c as [|[|[|[|[|c]]]]]; try lia. destruct c; discriminate Hj. }
  rewrite (rows_drop MB to_bf x7 c (length (fst x8)) CL (seq 0 (length (fst x8))) x9 (fun i Hi => proj2 (proj1 (in_seq _ _ _) Hi)) E9). cbn [bind].
  rewrite steps_drop, E10. cbn [bind]. reflexivity.
Qed.

Lemma ex_missing : exists m, de_proof Fr gl_to_bf GL (JObj m) = Ok (ex_proof [ex_q1] []) /\
  blanked 2 (ex_proof [ex_q1] []) <> ex_proof [ex_q1] [].
Proof.
  pose proof (proof_roundtrip Fr gl_to_bf gl_of_bf GL (ex_proof [ex_q1] []) (ex_ok 1 []) ltac:(cbn; lia) (fun _ => eq_refl)) as H.
  destruct (ser_proof Fr gl_of_bf GL (ex_proof [ex_q1] [])) as [j| | |]; cbn [bind] in H; try discriminate H.
  destruct j as [s|l|m]; try discriminate H. exists m. split; [exact H|]. intros E.
  apply (f_equal (fun p => match queries Fr p with q :: _ => match pol_queries Fr q with [_; _; c; _; _] :: _ => length (fst c) | _ => O end | _ => O end)) in E.
  discriminate E.
Qed.
