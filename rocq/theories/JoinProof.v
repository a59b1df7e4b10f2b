(* Joining two proof inputs. *)
From Coq Require Import String Ascii.
From Verif Require Import Base ListAux SerModel.
Open Scope Z_scope.

Lemma text_eqb_eq : forall a b : text, text_eqb a b = true <-> a = b.
Proof.
  induction a as [|x a IH]; intros [|y b]; cbn [text_eqb]; split; intros H; try discriminate H; try reflexivity.
  - apply andb_prop in H. destruct H as [H1 H2]. apply Z.eqb_eq in H1. apply IH in H2. subst. reflexivity.
  - injection H as -> ->. rewrite Z.eqb_refl. cbn [andb]. apply IH. reflexivity.
Qed.
Lemma text_eqb_refl a : text_eqb a a = true. Proof. apply text_eqb_eq. reflexivity. Qed.
Lemma text_eqb_neq a b : a <> b -> text_eqb a b = false.
Proof. intros H. destruct (text_eqb a b) eqn:E; [|reflexivity]. apply text_eqb_eq in E. contradiction. Qed.
Lemma text_eqb_app p a b : text_eqb (p ++ a) (p ++ b) = text_eqb a b.
Proof. induction p as [|x p IH]; [reflexivity|]. cbn [app text_eqb]. rewrite Z.eqb_refl, IH. reflexivity. Qed.
Lemma text_eqb_sym : forall a b : text, text_eqb a b = text_eqb b a.
Proof. induction a as [|x a IH]; intros [|y b]; cbn [text_eqb]; try reflexivity. rewrite IH, Z.eqb_sym. reflexivity. Qed.

Section Map.
Context {V : Type}.
Implicit Types m : list (text * V).

Lemma kv_get_cons n v m key : kv_get ((n, v) :: m) key = if text_eqb n key then Some v else kv_get m key.
Proof. unfold kv_get. cbn [find fst]. destruct (text_eqb n key); reflexivity. Qed.
Lemma kv_get_filter m key k' : text_eqb key k' = false -> kv_get (filter (fun e => negb (text_eqb (fst e) key)) m) k' = kv_get m k'.
Proof.
  intros N. induction m as [|[n v] m IH]; [reflexivity|]. cbn [filter fst]. destruct (text_eqb n key) eqn:E; cbn [negb].
  - rewrite kv_get_cons. apply text_eqb_eq in E. subst n. rewrite N. exact IH.
  - rewrite !kv_get_cons, IH. reflexivity.
Qed.
Lemma kv_get_put m key v k' : kv_get (kv_put m key v) k' = if text_eqb key k' then Some v else kv_get m k'.
Proof. unfold kv_put. rewrite kv_get_cons. destruct (text_eqb key k') eqn:E; [reflexivity|]. apply kv_get_filter. exact E. Qed.
Lemma kv_get_none m key : ~ In key (map fst m) -> kv_get m key = None.
Proof.
  induction m as [|[n v] m IH]; intros H; [reflexivity|]. rewrite kv_get_cons. cbn [map fst In] in H.
  rewrite text_eqb_neq by (intros ->; apply H; left; reflexivity). apply IH. intros G. apply H. right. exact G.
Qed.
Lemma kv_get_in m key v : NoDup (map fst m) -> (kv_get m key = Some v <-> In (key, v) m).
Proof.
  induction m as [|[n w] m IH]; intros N; [split; [discriminate|intros []]|]. rewrite kv_get_cons. cbn [map fst] in N. inversion N; subst.
  destruct (text_eqb n key) eqn:E.
  - apply text_eqb_eq in E. subst n. split; [intros [= ->]; left; reflexivity|]. intros [[= ->]|G]; [reflexivity|].
    exfalso. apply H1. apply (in_map fst) in G. exact G.
  - rewrite IH by assumption. split; [intros G; right; exact G|]. intros [[= -> ->]|G]; [rewrite text_eqb_refl in E; discriminate E|exact G].
Qed.
End Map.

(* an input: a map, so that no name occurs twice *)
Definition is_map (m : list (text * json)) : Prop := NoDup (map fst m).
(* the public inputs handed on: the last four are dropped when there are four *)
Definition handed_on (v : option json) : option json :=
  match v with
  | Some (JArr arr) => Some (JArr (if (4 <=? length arr)%nat then firstn (length arr - 4) arr else arr))
  | _ => None
  end.

Lemma step2_b z2 : is_map z2 -> forall out n,
  kv_get (fold_left join_step2 z2 out) (str "b_" ++ n) = match kv_get z2 n with Some v => Some v | None => kv_get out (str "b_" ++ n) end.
Proof.
  induction z2 as [|[n0 v] z2 IH]; intros M out n; [reflexivity|]. unfold is_map in M. cbn [map fst] in M. inversion M; subst.
  cbn [fold_left]. rewrite IH by assumption. unfold join_step2. cbn [fst snd]. rewrite kv_get_put, kv_get_cons, text_eqb_app.
  destruct (text_eqb n0 n) eqn:E; [|reflexivity]. apply text_eqb_eq in E. subst n0. rewrite kv_get_none by assumption. reflexivity.
Qed.
Lemma step2_other z2 : forall out key, (forall n, key <> str "b_" ++ n) ->
  kv_get (fold_left join_step2 z2 out) key = kv_get out key.
Proof.
  induction z2 as [|[n0 v] z2 IH]; intros out key N; [reflexivity|]. cbn [fold_left]. rewrite IH by exact N.
  unfold join_step2. cbn [fst snd]. rewrite kv_get_put. rewrite text_eqb_neq; [reflexivity|]. intros E. exact (N _ (eq_sym E)).
Qed.

Lemma join1_get out n v key : kv_get (join_step1 out (n, v)) key =
  if text_eqb n (str "rootC") && text_eqb n key then Some v else
  if text_eqb n (str "publics") && text_eqb (str "publics") key && match v with JArr _ => true | _ => false end
  then handed_on (Some v) else
  if text_eqb (str "a_" ++ n) key then Some v else kv_get out key.
Proof.
  unfold join_step1. destruct (text_eqb n (str "rootC")) eqn:E1.
  - apply text_eqb_eq in E1. subst n. replace (text_eqb (str "rootC") (str "publics")) with false by reflexivity.
    cbn [andb]. rewrite kv_get_put. destruct (text_eqb (str "rootC") key); [reflexivity|]. apply kv_get_put.
  - cbn [andb]. destruct (text_eqb n (str "publics")) eqn:E2; cbn [andb]; [|apply kv_get_put].
    destruct v as [s|arr|m]; cbn [andb handed_on]; rewrite ?andb_false_r, ?andb_true_r; try apply kv_get_put.
    destruct (4 <=? length arr)%nat; rewrite !kv_get_put; reflexivity.
Qed.

Lemma step1_a z1 : is_map z1 -> forall out n,
  kv_get (fold_left join_step1 z1 out) (str "a_" ++ n) = match kv_get z1 n with Some v => Some v | None => kv_get out (str "a_" ++ n) end.
Proof.
  induction z1 as [|[n0 v] z1 IH]; intros M out n; [reflexivity|]. unfold is_map in M. cbn [map fst] in M. inversion M; subst.
  cbn [fold_left]. rewrite IH by assumption. rewrite join1_get, kv_get_cons.
  assert (E1 : text_eqb n0 (str "rootC") && text_eqb n0 (str "a_" ++ n) = false).
  { destruct (text_eqb n0 (str "rootC")) eqn:E; [|reflexivity]. apply text_eqb_eq in E. subst n0. reflexivity. }
  rewrite E1. replace (text_eqb (str "publics") (str "a_" ++ n)) with false by reflexivity. rewrite andb_false_r. cbn [andb].
  rewrite text_eqb_app. destruct (text_eqb n0 n) eqn:E; [|reflexivity].
  apply text_eqb_eq in E. subst n0. rewrite kv_get_none by assumption. reflexivity.
Qed.
Lemma step1_rootC z1 : is_map z1 -> forall out,
  kv_get (fold_left join_step1 z1 out) (str "rootC") = match kv_get z1 (str "rootC") with Some v => Some v | None => kv_get out (str "rootC") end.
Proof.
  induction z1 as [|[n0 v] z1 IH]; intros M out; [reflexivity|]. unfold is_map in M. cbn [map fst] in M. inversion M; subst.
  cbn [fold_left]. rewrite IH by assumption. rewrite join1_get, kv_get_cons.
  replace (text_eqb (str "publics") (str "rootC")) with false by reflexivity. rewrite andb_false_r. cbn [andb].
  rewrite andb_diag. destruct (text_eqb n0 (str "rootC")) eqn:E.
  - apply text_eqb_eq in E. subst n0. rewrite kv_get_none by assumption. reflexivity.
  - reflexivity.
Qed.
Lemma step1_publics z1 : is_map z1 -> forall out,
  kv_get (fold_left join_step1 z1 out) (str "publics") =
  match handed_on (kv_get z1 (str "publics")) with Some v => Some v | None => kv_get out (str "publics") end.
Proof.
  induction z1 as [|[n0 v] z1 IH]; intros M out; [reflexivity|]. unfold is_map in M. cbn [map fst] in M. inversion M; subst.
  cbn [fold_left]. rewrite IH by assumption. rewrite join1_get, kv_get_cons.
  assert (E1 : text_eqb n0 (str "rootC") && text_eqb n0 (str "publics") = false).
  { destruct (text_eqb n0 (str "rootC")) eqn:E; [|reflexivity]. apply text_eqb_eq in E. subst n0. reflexivity. }
  rewrite E1, text_eqb_refl, andb_true_r. cbn [andb]. replace (text_eqb (str "a_" ++ n0) (str "publics")) with false by reflexivity.
  destruct (text_eqb n0 (str "publics")) eqn:E; [|reflexivity].
  apply text_eqb_eq in E. subst n0. rewrite kv_get_none by assumption. destruct v; reflexivity.
Qed.
Lemma step1_other z1 : forall out key, (forall n, key <> str "a_" ++ n) -> key <> str "publics" -> key <> str "rootC" ->
  kv_get (fold_left join_step1 z1 out) key = kv_get out key.
Proof.
  induction z1 as [|[n0 v] z1 IH]; intros out key Na Np Nr; [reflexivity|]. cbn [fold_left]. rewrite IH by assumption.
  rewrite join1_get. rewrite (text_eqb_neq (str "a_" ++ n0) key) by (intros E; exact (Na _ (eq_sym E))).
  rewrite (text_eqb_neq (str "publics") key) by congruence. rewrite andb_false_r. cbn [andb].
  destruct (text_eqb n0 (str "rootC")) eqn:E; [|reflexivity]. apply text_eqb_eq in E. subst n0.
  rewrite text_eqb_neq by congruence. reflexivity.
Qed.

(* the whole of the joined input *)
Theorem join_spec z1 z2 : is_map z1 -> is_map z2 ->
  (forall n, kv_get (join_zkin z1 z2) (str "a_" ++ n) = kv_get z1 n) /\
  (forall n, kv_get (join_zkin z1 z2) (str "b_" ++ n) = kv_get z2 n) /\
  kv_get (join_zkin z1 z2) (str "publics") = handed_on (kv_get z1 (str "publics")) /\
  kv_get (join_zkin z1 z2) (str "rootC") = kv_get z1 (str "rootC") /\
  (forall key, (forall n, key <> str "a_" ++ n) -> (forall n, key <> str "b_" ++ n) ->
     key <> str "publics" -> key <> str "rootC" -> kv_get (join_zkin z1 z2) key = None).
Proof.
  intros M1 M2. unfold join_zkin. split; [|split; [|split; [|split]]].
  - intros n. rewrite step2_other by (intros n'; discriminate). rewrite step1_a by exact M1. destruct (kv_get z1 n); reflexivity.
  - intros n. rewrite step2_b by exact M2. destruct (kv_get z2 n); [reflexivity|].
    rewrite step1_other by (try intros n'; discriminate). reflexivity.
  - rewrite step2_other by (intros n'; discriminate). rewrite step1_publics by exact M1. destruct (handed_on _); reflexivity.
  - rewrite step2_other by (intros n'; discriminate). rewrite step1_rootC by exact M1. destruct (kv_get z1 _); reflexivity.
  - intros key Na Nb Np Nr. rewrite step2_other by exact Nb. rewrite step1_other by assumption. reflexivity.
Qed.
(* it determines both inputs *)
Theorem join_determines z1 z2 y1 y2 : is_map z1 -> is_map z2 -> is_map y1 -> is_map y2 ->
  (forall key, kv_get (join_zkin z1 z2) key = kv_get (join_zkin y1 y2) key) ->
  (forall n v, In (n, v) z1 <-> In (n, v) y1) /\ (forall n v, In (n, v) z2 <-> In (n, v) y2).
Proof.
  intros M1 M2 N1 N2 E. destruct (join_spec z1 z2 M1 M2) as [A [B _]]. destruct (join_spec y1 y2 N1 N2) as [A' [B' _]].
  split; intros n v.
  - rewrite <- (kv_get_in z1) by exact M1. rewrite <- (kv_get_in y1) by exact N1. rewrite <- A, <- A', E. reflexivity.
  - rewrite <- (kv_get_in z2) by exact M2. rewrite <- (kv_get_in y2) by exact N2. rewrite <- B, <- B', E. reflexivity.
Qed.
Lemma filter_nodup (l : list (text * json)) f : NoDup (map fst l) -> NoDup (map fst (filter f l)).
Proof.
  induction l as [|e l IH]; intros H; [exact H|]. cbn [map filter] in *. inversion H; subst. destruct (f e); [|auto].
  cbn [map]. constructor; [|auto]. intros G. apply H2. apply in_map_iff in G. destruct G as [x [E G]]. apply filter_In in G.
  rewrite <- E. apply in_map. apply G.
Qed.
Lemma put_map m k v : is_map m -> is_map (kv_put m k v).
Proof.
  intros H. unfold is_map, kv_put. cbn [map fst]. constructor; [|apply filter_nodup; exact H].
  intros G. apply in_map_iff in G. destruct G as [x [E G]]. apply filter_In in G. destruct G as [_ G]. rewrite E, text_eqb_refl in G. discriminate G.
Qed.
(* no name occurs twice in the output *)
Theorem join_is_map z1 z2 : is_map (join_zkin z1 z2).
Proof.
  unfold join_zkin. assert (H : is_map (fold_left join_step1 z1 [])).
  { assert (G : forall out, is_map out -> is_map (fold_left join_step1 z1 out)).
    { induction z1 as [|[n v] z1 IH]; intros out H; [exact H|]. cbn [fold_left]. apply IH. unfold join_step1.
      destruct (text_eqb n (str "rootC")), (text_eqb n (str "publics")), v; try (destruct (4 <=? length l)%nat);
        repeat apply put_map; exact H. }
    apply G. constructor. }
  revert H. generalize (fold_left join_step1 z1 []). induction z2 as [|[n v] z2 IH]; intros out H; [exact H|].
  cbn [fold_left]. apply IH. apply put_map. exact H.
Qed.
