(* When the export ends: the numbers computed beforehand are the positions of the expressions. *)
From Verif Require Import Base GlModel F3gModel ListAux VerifierModel StageModel CodegenModel CodegenProof ArgStages ExportModel ExportProof.
From Verif Require ArgModel.
Open Scope nat_scope.
Open Scope list_scope.
Open Scope res_scope.

(* the number of expressions of a statement *)
Definition stmt_exps (a : analyzed) (x : statement) : nat :=
  match x with
  | SDefinition nm => match an_ims a nm with Some (s, _) => sym_count s | None => 0 end
  | SPublic _ => 0
  | SIdentity i => match nth_error (an_ids a) i with Some d => id_exps d | None => 0 end
  end.
Definition total (a : analyzed) (xs : list statement) : nat := list_sum (map (stmt_exps a) xs).
(* the intermediate polynomials in the order of the source, with the positions of their expressions *)
Fixpoint positions (a : analyzed) (n : nat) (xs : list statement) : list (nat * nat) :=
  match xs with
  | [] => []
  | x :: xs => (match x with
                | SDefinition nm => match an_ims a nm with Some (s, _) => map (fun k => (sy_id s + k, n + k)) (seq 0 (sym_count s)) | None => [] end
                | _ => [] end) ++ positions a (n + stmt_exps a x) xs
  end.
Definition known (a : analyzed) (i : nat) : Prop := In i (map fst (positions a 0 (an_order a))).
(* an expression that can be exported: its intermediate polynomials and publics exist, powers are of constants *)
Fixpoint closed (e : aexpr) : bool := match e with ARef _ _ => false | ABin BMul l r => closed l && closed r | ABin _ l r => closed l && closed r | AMinus e => closed e | _ => true end.
Fixpoint exportable (a : analyzed) (e : aexpr) : Prop :=
  match e with
  | ARef (i, Intermediate) _ => known a i
  | ARef _ _ => True
  | APublic n => an_pubs a n <> None
  | AChallenge _ | ANumber _ => True
  | ABin op l r => exportable a l /\ exportable a r /\ (op = BPow -> closed l = true /\ closed r = true)
  | AMinus e => exportable a e
  end.
Definition sel_exportable (a : analyzed) (s : selected) : Prop := Forall (exportable a) (se_exps s) /\ forall e, se_sel s = Some e -> exportable a e.
(* what powdr guarantees of an analysed PIL *)
Definition sound_stmt (a : analyzed) (x : statement) : Prop :=
  match x with
  | SDefinition nm => (exists s, an_defs a nm = Some s /\ im_kind s = false /\ an_ims a nm = None) \/
      (exists s vals, an_defs a nm = None /\ an_ims a nm = Some (s, vals) /\ im_kind s = true /\ List.length vals = sym_count s /\ Forall (exportable a) vals)
  | SPublic nm => exists d id t, an_pubs a nm = Some d /\ pd_poly d = Some (id, t) /\ (is_im t = true -> known a (id + match pd_elem d with Some k => k | None => 0 end))
  | SIdentity i => exists d, nth_error (an_ids a) i = Some d /\ sel_exportable a (id_left d) /\ sel_exportable a (id_right d) /\ (id_kind d = KPolynomial -> se_sel (id_left d) <> None)
  end.
Record sound_pil (a : analyzed) : Prop := { sp_stmts : Forall (sound_stmt a) (an_order a); sp_nodup : NoDup (map fst (positions a 0 (an_order a))) }.

Lemma count_fold a : forall xs n ids, Forall (sound_stmt a) xs -> foldM (count_step a) xs (n, ids) = Ok (n + total a xs, rev (positions a n xs) ++ ids).
Proof.
  induction xs as [|x xs IH]; intros n ids H; cbn [foldM]; [unfold total; cbn; now rewrite Nat.add_0_r|]. pose proof (Forall_inv H) as Hx. apply Forall_inv_tail in H.
  assert (E : count_step a (n, ids) x = Ok (n + stmt_exps a x, rev (match x with SDefinition nm => match an_ims a nm with Some (s, _) => map (fun k => (sy_id s + k, n + k)) (seq 0 (sym_count s)) | None => [] end | _ => [] end) ++ ids)).
  { destruct x as [nm|nm|i]; cbn [count_step stmt_exps].
    - destruct Hx as [[s [A [B C]]]|[s [vals [A [B [C D]]]]]]; [rewrite A, B, C | rewrite A, B; cbv beta iota; rewrite C]; unfold sym_exps.
      + unfold im_kind in B. destruct (sy_kind s) as [[]|]; try discriminate B; reflexivity.
      + unfold im_kind in C. destruct (sy_kind s) as [[]|]; try discriminate C. reflexivity.
    - destruct Hx as [d [id [t [A _]]]]. rewrite A, Nat.add_0_r. reflexivity.
    - destruct Hx as [d [A _]]. unfold vget. rewrite A. reflexivity. }
  rewrite E. cbn [bind]. rewrite (IH _ _ H). cbn [positions]. rewrite rev_app_distr, <- app_assoc. unfold total. cbn [map list_sum fold_right]. rewrite Nat.add_assoc. reflexivity.
Qed.
Lemma ids_are a : sound_pil a -> intermediate_ids a = Ok (rev (positions a 0 (an_order a))).
Proof. intros [H _]. unfold intermediate_ids. rewrite (count_fold _ _ _ _ H). cbn [bind snd]. now rewrite app_nil_r. Qed.
Lemma assoc_nodup (l : idmap) i k : NoDup (map fst l) -> In (i, k) l -> assoc Nat.eqb l i = Some k.
Proof.
  induction l as [|[i0 k0] l IH]; intros N H; [destruct H|]. cbn [map] in N. inversion N as [|? ? N1 N2]; subst. cbn [assoc fst] in *. destruct H as [H|H].
  - injection H as -> ->. now rewrite Nat.eqb_refl.
  - destruct (Nat.eqb_spec i0 i) as [->|]; [destruct N1; apply in_map_iff; exists (i, k); auto | exact (IH N2 H)].
Qed.
Lemma ids_at a i k : sound_pil a -> In (i, k) (positions a 0 (an_order a)) -> assoc Nat.eqb (rev (positions a 0 (an_order a))) i = Some k.
Proof. intros [_ N] H. apply assoc_nodup; [rewrite map_rev; apply NoDup_rev; exact N | rewrite <- in_rev; exact H]. Qed.
Lemma ids_known a i : sound_pil a -> known a i -> exists k, assoc Nat.eqb (rev (positions a 0 (an_order a))) i = Some k.
Proof. intros S H. apply in_map_iff in H. destruct H as [[i' k] [E H]]. cbn in E. subst i'. exists k. exact (ids_at _ _ _ S H). Qed.

Section Total.
  Variable a : analyzed.
  Hypothesis HS : sound_pil a.
  Local Notation ids := (rev (positions a 0 (an_order a))).
  Lemma json_total e : exportable a e -> exists d j, to_json a ids e = Ok (d, j) /\ (closed e = true -> d = 0).
  Proof.
    induction e as [[i t] nx|n|i|z|op x IHx y IHy|x IHx]; intros H; cbn [exportable to_json closed] in *.
    - unfold poly_ref. destruct t; [| |destruct (ids_known _ _ HS H) as [k E]; rewrite E]; cbn [is_im unwrap bind]; eexists _, _; (split; [reflexivity | discriminate]).
    - destruct (an_pubs a n) as [q|]; [|destruct (H eq_refl)]. cbn [unwrap bind]. eexists _, _. split; [reflexivity | reflexivity].
    - eexists _, _. split; [reflexivity | reflexivity].
    - eexists _, _. split; [reflexivity | reflexivity].
    - destruct H as [Hx [Hy Hp]]. destruct (IHx Hx) as [dx [jx [Ex Cx]]]. destruct (IHy Hy) as [dy [jy [Ey Cy]]]. rewrite Ex. cbn [bind]. rewrite Ey. cbn [bind]. destruct op.
      + eexists _, _. split; [reflexivity|]. intros C. apply andb_prop in C. rewrite (Cx (proj1 C)), (Cy (proj2 C)). reflexivity.
      + eexists _, _. split; [reflexivity|]. intros C. apply andb_prop in C. rewrite (Cx (proj1 C)), (Cy (proj2 C)). reflexivity.
      + eexists _, _. split; [reflexivity|]. intros C. apply andb_prop in C. rewrite (Cx (proj1 C)), (Cy (proj2 C)). reflexivity.
      + destruct (Hp eq_refl) as [C1 C2]. rewrite (Cx C1), (Cy C2). cbn. eexists _, _. split; reflexivity.
    - destruct (IHx H) as [dx [jx [Ex Cx]]]. rewrite Ex. cbn [bind]. eexists _, _. split; [reflexivity | exact Cx].
  Qed.
  Lemma extract_total x e m : exportable a e -> exists x', extract a ids x e m = Ok (List.length (ex_exps x), x').
  Proof. intros H. destruct (json_total e H) as [d [j [E _]]]. unfold extract. rewrite E. cbn [bind]. destruct (m <? d); eexists; reflexivity. Qed.
  Lemma extract_opt_total x e m : (forall e', e = Some e' -> exportable a e') -> exists i x', extract_opt a ids x e m = Ok (i, x').
  Proof. intros H. destruct e as [e|]; [|eexists _, _; reflexivity]. destruct (extract_total x e m (H e eq_refl)) as [x' E]. cbn [extract_opt]. rewrite E. eexists _, _. reflexivity. Qed.
  Lemma extract_vec_total m l : Forall (exportable a) l -> forall x, exists v x', extract_vec a ids x l m = Ok (v, x').
  Proof.
    induction 1 as [|e l He _ IH]; intros x; cbn [extract_vec]; [eexists _, _; reflexivity|]. destruct (extract_total x e m He) as [x1 E]. rewrite E. cbn [bind fst snd]. destruct (IH x1) as [v [x2 E2]]. rewrite E2. eexists _, _. reflexivity.
  Qed.
  Lemma extract_ims_total s : forall vals x b n, Forall (exportable a) vals -> List.length vals = n -> (forall k, k < n -> assoc Nat.eqb ids (sy_id s + (b + k)) = Some (List.length (ex_exps x) + k)) ->
    exists x', extract_ims a ids x (combine (map (fun k => sy_id s + k) (seq b n)) vals) = Ok x'.
  Proof.
    induction vals as [|e vals IH]; intros x b n Hv Hn Ha; subst n; cbn [List.length seq map combine extract_ims]; [eexists; reflexivity|].
    destruct (extract_total x e 1 (Forall_inv Hv)) as [x1 E]. rewrite E. cbn [bind fst snd]. pose proof (Ha 0 ltac:(cbn; lia)) as A0. rewrite !Nat.add_0_r in A0. rewrite A0. cbn [unwrap bind]. rewrite Nat.eqb_refl.
    apply (IH x1 (S b) _ (Forall_inv_tail Hv) eq_refl). intros k Hk. destruct (extract_ok _ _ _ _ _ _ _ E) as [_ [_ [_ L]]]. rewrite L. pose proof (Ha (S k) ltac:(cbn; lia)) as A1.
    replace (S b + k) with (b + S k) by lia. rewrite A1. f_equal. lia.
  Qed.
  Lemma step_total o x : sound_stmt a x -> (forall nm s vals, x = SDefinition nm -> an_ims a nm = Some (s, vals) -> forall k, k < sym_count s -> assoc Nat.eqb ids (sy_id s + k) = Some (List.length (ex_exps (xp_ex o)) + k)) ->
    exists o', export_step a ids o x = Ok o' /\ List.length (ex_exps (xp_ex o')) = List.length (ex_exps (xp_ex o)) + stmt_exps a x.
  Proof.
    intros Hx Hp. destruct x as [nm|nm|i]; cbn [export_step stmt_exps].
    - destruct Hx as [[s [A [B C]]]|[s [vals [A [B [C [D E]]]]]]]; [rewrite C; exists o; split; [reflexivity | lia]|]. rewrite B. cbv beta iota. rewrite C.
      destruct (extract_ims_total s vals (xp_ex o) 0 (sym_count s) E D) as [x' F]; [intros k Hk; cbn [Nat.add]; exact (Hp nm s vals eq_refl B k Hk)|]. rewrite F. cbn [bind]. eexists. split; [reflexivity|]. cbn [with_ex xp_ex].
      destruct (extract_ims_ok _ _ _ _ _ F) as [_ [L _]]. rewrite L, combine_length, map_length, seq_length, D. lia.
    - destruct Hx as [d [id [t [A [B C]]]]]. rewrite A. cbn [unwrap bind]. unfold export_public. rewrite B. cbn [unwrap bind]. unfold poly_ref.
      destruct (is_im t) eqn:Et; [destruct (ids_known _ _ HS (C eq_refl)) as [k E]; rewrite E|]; cbn [unwrap bind e_id snd]; eexists; (split; [reflexivity | cbn; lia]).
    - destruct Hx as [d [A [[L1 L2] [[R1 R2] K]]]]. unfold vget. rewrite A. cbn [bind]. unfold export_identity.
      destruct (extract_vec_total 1 _ L1 (xp_ex o)) as [lv [x1 E1]]. rewrite E1. cbn [bind]. destruct (extract_opt_total x1 (se_sel (id_left d)) (match id_kind d with KPolynomial => 2 | _ => 1 end) L2) as [sl [x2 E2]]. rewrite E2. cbn [bind].
      destruct (extract_vec_total 1 _ R1 x2) as [rv [x3 E3]]. rewrite E3. cbn [bind]. destruct (extract_opt_total x3 (se_sel (id_right d)) 1 R2) as [sr [x4 E4]]. rewrite E4. cbn [bind].
      destruct (extract_vec_ok _ _ _ _ _ _ _ E1) as [_ [_ N1]]. destruct (extract_opt_ok _ _ _ _ _ _ _ E2) as [_ [M2 N2]]. destruct (extract_vec_ok _ _ _ _ _ _ _ E3) as [_ [_ N3]]. destruct (extract_opt_ok _ _ _ _ _ _ _ E4) as [_ [_ N4]].
      assert (N : List.length (ex_exps x4) = List.length (ex_exps (xp_ex o)) + id_exps d) by (unfold id_exps, sel_exps; lia).
      destruct (id_kind d) eqn:Ek; [|eexists; split; [reflexivity | exact N]..]. destruct sl as [e|]; [cbn [unwrap bind]; eexists; split; [reflexivity | exact N]|]. destruct (se_sel (id_left d)) eqn:Es; [destruct M2 | destruct (K eq_refl eq_refl)].
  Qed.
  Lemma positions_in : forall xs n nm s vals ys k, an_ims a nm = Some (s, vals) -> k < sym_count s -> In (sy_id s + k, n + total a xs + k) (positions a n (xs ++ SDefinition nm :: ys)).
  Proof.
    induction xs as [|x xs IH]; intros n nm s vals ys k E Hk; cbn [app positions].
    - rewrite E. apply in_or_app. left. apply in_map_iff. exists k. split; [unfold total; cbn; f_equal; lia | apply in_seq; lia].
    - apply in_or_app. right. pose proof (IH (n + stmt_exps a x) nm s vals ys k E Hk) as H. unfold total in *. cbn [map list_sum fold_right] in *. replace (n + (stmt_exps a x + fold_right Init.Nat.add 0 (map (stmt_exps a) xs)) + k) with (n + stmt_exps a x + fold_right Init.Nat.add 0 (map (stmt_exps a) xs) + k) by lia. exact H.
  Qed.
  Lemma fold_total : forall ys xs o, an_order a = xs ++ ys -> List.length (ex_exps (xp_ex o)) = total a xs -> exists o', foldM (export_step a ids) ys o = Ok o' /\ List.length (ex_exps (xp_ex o')) = total a (an_order a).
  Proof.
    induction ys as [|y ys IH]; intros xs o E L; cbn [foldM]; [exists o; split; [reflexivity | rewrite L, E, app_nil_r; reflexivity]|].
    destruct (step_total o y) as [o1 [E1 L1]].
    - destruct HS as [H _]. rewrite E in H. apply Forall_app in H. exact (Forall_inv (proj2 H)).
    - intros nm s vals Ey Em k Hk. apply ids_at; [exact HS|]. rewrite L. rewrite E, Ey. exact (positions_in xs 0 nm s vals ys k Em Hk).
    - rewrite E1. cbn [bind]. apply (IH (xs ++ [y]) o1); [rewrite <- app_assoc; exact E|]. rewrite L1, L. unfold total. rewrite map_app, list_sum_app. cbn. lia.
  Qed.
  Theorem export_total : exists o, export a = Ok o /\ List.length (ex_exps (xp_ex o)) = total a (an_order a).
  Proof.
    unfold export. rewrite (ids_are a HS). cbn [bind]. exact (fold_total (an_order a) [] xp_start eq_refl eq_refl).
  Qed.
End Total.
