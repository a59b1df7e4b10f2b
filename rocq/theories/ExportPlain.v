(* The exported PIL of a PIL without arguments, and the rows of its table. *)
From Verif Require Import Base GlModel FrField F3gModel Cubic F3gProof ListAux VerifierModel StageModel CodegenModel CodegenProof
  InterpModel StarkStep4 HashModel PolsModel PolsProof ProverModel StarkSrc StarkTop StarkExtend StarkStages StarkPlain InfoModel InfoCols InfoTop InfoRun CodegenModel ExportModel ExportProof ExportTotal.
From Verif Require ArgModel.
Open Scope nat_scope.
Open Scope list_scope.
Open Scope res_scope.

(** ** where the exported expressions come from *)
Definition sel_list (s : selected) : list aexpr := (match se_sel s with Some e => [e] | None => [] end) ++ se_exps s.
Definition sources (a : analyzed) (x : statement) : list aexpr :=
  match x with
  | SDefinition nm => match an_ims a nm with Some (_, vals) => vals | None => [] end
  | SPublic _ => []
  | SIdentity i => match nth_error (an_ids a) i with Some d => sel_list (id_left d) ++ sel_list (id_right d) | None => [] end
  end.
Section Made.
  Variables (a : analyzed) (ids : idmap) (Src : aexpr -> Prop).
  Definition made (l : list expr) : Prop := Forall (fun j => exists e d j0, Src e /\ to_json a ids e = Ok (d, j0) /\ like j j0) l.
  Lemma extract_made x e m i x' : extract a ids x e m = Ok (i, x') -> Src e -> made (ex_exps x) -> made (ex_exps x').
  Proof.
    unfold extract. intros H He Hm. apply bind_ok in H. destruct H as [[d j] [E H]]. destruct (m <? d); injection H as <- <-; cbn [ex_exps];
      (apply Forall_app; split; [exact Hm|]); (constructor; [|constructor]); exists e, d, j; (split; [exact He|]); (split; [exact E | unfold like; auto]).
  Qed.
  Lemma extract_opt_made x e m i x' : extract_opt a ids x e m = Ok (i, x') -> (forall e', e = Some e' -> Src e') -> made (ex_exps x) -> made (ex_exps x').
  Proof.
    unfold extract_opt. intros H He Hm. destruct e as [e|]; [|injection H as <- <-; exact Hm]. apply bind_ok in H. destruct H as [[k y] [E H]]. injection H as <- <-. exact (extract_made _ _ _ _ _ E (He e eq_refl) Hm).
  Qed.
  Lemma extract_vec_made m l : forall x v x', extract_vec a ids x l m = Ok (v, x') -> (forall e, In e l -> Src e) -> made (ex_exps x) -> made (ex_exps x').
  Proof.
    induction l as [|e l IH]; intros x v x' H Hl Hm; cbn [extract_vec] in H; [injection H as <- <-; exact Hm|].
    apply bind_ok in H. destruct H as [[i y] [E H]]. cbn [fst snd] in H. apply bind_ok in H. destruct H as [[v' z] [E2 H]]. injection H as <- <-. cbn [snd].
    apply (IH _ _ _ E2); [intros e' He'; apply Hl; now right|]. exact (extract_made _ _ _ _ _ E (Hl e (or_introl eq_refl)) Hm).
  Qed.
  Lemma extract_ims_made l : forall x x', extract_ims a ids x l = Ok x' -> (forall pid e, In (pid, e) l -> Src e) -> made (ex_exps x) -> made (ex_exps x').
  Proof.
    induction l as [|[pid e] l IH]; intros x x' H Hl Hm; cbn [extract_ims] in H; [injection H as <-; exact Hm|].
    apply bind_ok in H. destruct H as [[i y] [E H]]. cbn [fst snd] in H. apply bind_ok in H. destruct H as [i' [_ H]]. destruct (i =? i'); [|discriminate H].
    apply (IH _ _ H); [intros p' e' He'; apply (Hl p'); now right|]. exact (extract_made _ _ _ _ _ E (Hl pid e (or_introl eq_refl)) Hm).
  Qed.
  Lemma step_made o x o' : export_step a ids o x = Ok o' -> (forall e, In e (sources a x) -> Src e) -> made (ex_exps (xp_ex o)) -> made (ex_exps (xp_ex o')).
  Proof.
    intros H Hs Hm. destruct x as [nm|nm|i]; cbn [export_step sources] in *.
    - destruct (an_ims a nm) as [[s vals]|]; [|injection H as <-; exact Hm]. destruct (im_kind s); [|discriminate H]. apply bind_ok in H. destruct H as [x' [E H]]. injection H as <-. cbn [with_ex xp_ex].
      apply (extract_ims_made _ _ _ E); [|exact Hm]. intros pid e He. apply Hs. exact (in_combine_r _ _ _ _ He).
    - apply bind_ok in H. destruct H as [d [_ H]]. unfold export_public in H. apply bind_ok in H. destruct H as [[id t] [_ H]]. apply bind_ok in H. destruct H as [r [_ H]]. apply bind_ok in H. destruct H as [k [_ H]]. injection H as <-. exact Hm.
    - apply bind_ok in H. destruct H as [d [Ed H]]. assert (nth_error (an_ids a) i = Some d) as Ed' by (unfold vget in Ed; destruct (nth_error (an_ids a) i); [injection Ed as ->; reflexivity | discriminate Ed]).
      rewrite Ed' in Hs. unfold export_identity in H. apply bind_ok in H. destruct H as [[lv x1] [E1 H]]. apply bind_ok in H. destruct H as [[sl x2] [E2 H]]. apply bind_ok in H. destruct H as [[rv x3] [E3 H]]. apply bind_ok in H. destruct H as [[sr x4] [E4 H]].
      assert (M : made (ex_exps x4)).
      { apply (extract_opt_made _ _ _ _ _ E4); [intros e' He'; apply Hs; apply in_or_app; right; unfold sel_list; rewrite He'; now left|].
        apply (extract_vec_made _ _ _ _ _ E3); [intros e' He'; apply Hs; apply in_or_app; right; unfold sel_list; apply in_or_app; now right|].
        apply (extract_opt_made _ _ _ _ _ E2); [intros e' He'; apply Hs; apply in_or_app; left; unfold sel_list; rewrite He'; now left|].
        apply (extract_vec_made _ _ _ _ _ E1); [intros e' He'; apply Hs; apply in_or_app; left; unfold sel_list; apply in_or_app; now right|]. exact Hm. }
      destruct (id_kind d); [apply bind_ok in H; destruct H as [k [_ H]]|..]; injection H as <-; exact M.
  Qed.
  Lemma fold_made xs : (forall x e, In x xs -> In e (sources a x) -> Src e) -> forall o o', foldM (export_step a ids) xs o = Ok o' -> made (ex_exps (xp_ex o)) -> made (ex_exps (xp_ex o')).
  Proof.
    induction xs as [|x xs IH]; intros Hs o o' H Hm; cbn [foldM] in H; [injection H as <-; exact Hm|]. apply bind_ok in H. destruct H as [o1 [E H]].
    apply (IH (fun y e Hy => Hs y e (or_intror Hy)) _ _ H). exact (step_made _ _ _ E (fun e => Hs x e (or_introl eq_refl)) Hm).
  Qed.
End Made.
Lemma all_made a ids o : intermediate_ids a = Ok ids -> export a = Ok o -> made a ids (fun e => exists x, In x (an_order a) /\ In e (sources a x)) (ex_exps (xp_ex o)).
Proof.
  intros Hi H. unfold export in H. rewrite Hi in H. cbn [bind] in H. refine (fold_made a ids _ (an_order a) _ _ _ H _); [intros x e Hx He; exists x; auto | constructor].
Qed.

(** ** a PIL without arguments *)
Fixpoint bounded (a : analyzed) (e : aexpr) : Prop :=
  match e with
  | ARef (i, Committed) _ => i < an_ncm a
  | ARef (i, Constant) _ => i < an_nconst a
  | ARef (_, Intermediate) _ | APublic _ => True
  | AChallenge _ => False
  | ANumber z => (0 <= z < GLP)%Z
  | ABin op l r => op <> BPow /\ bounded a l /\ bounded a r
  | AMinus e => bounded a e
  end.
Definition elem_of (d : pubdecl) : nat := match pd_elem d with Some k => k | None => 0 end.
(* columns exist, numbers are below the modulus, nothing is two rows ahead, publics are cells of committed columns
   and are numbered as they are declared *)
Record plain_an (a : analyzed) (deg : nat) : Prop := {
  pa_args : forall i d, In (SIdentity i) (an_order a) -> nth_error (an_ids a) i = Some d -> id_kind d = KPolynomial;
  pa_exprs : forall x e, In x (an_order a) -> In e (sources a x) -> bounded a e /\ once a false e;
  pa_pubs : forall n d, In (SPublic n) (an_order a) -> an_pubs a n = Some d -> exists id, pd_poly d = Some (id, Committed) /\ id + elem_of d < an_ncm a /\ pd_row d < deg;
  pa_named : forall n d, an_pubs a n = Some d -> nth_error (pubs_of a (an_order a)) (pd_id d) = Some d }.
Definition pil_of (a : analyzed) (deg : nat) (l1 : option nat) (o : exported) : pil :=
  mkPil (ex_exps (xp_ex o)) (xp_pols o) (an_ncm a) (an_nconst a) (Some deg) (xp_publics o) (xp_lookups o) (xp_perms o) (xp_conns o) l1.

Lemma kind_nil a deg k : plain_an a deg -> k <> KPolynomial -> of_kind a k (an_order a) = [].
Proof.
  intros HP Hk. pose proof (pa_args _ _ HP) as H. unfold of_kind. induction (an_order a) as [|x xs IH]; [reflexivity|]. cbn [flat_map]. rewrite IH by (intros i d Hi; apply H; now right). rewrite app_nil_r.
  destruct x as [nm|nm|i]; [reflexivity | reflexivity|]. destruct (nth_error (an_ids a) i) as [d|] eqn:E; [|reflexivity]. rewrite (H i d (or_introl eq_refl) E). destruct k; [destruct (Hk eq_refl) | reflexivity..].
Qed.
Lemma number_small z : (0 <= z < GLP)%Z -> number_ok (Some z).
Proof.
  intros H. assert (G : (GLP < 2 ^ 64)%Z) by reflexivity. unfold number_ok, number_ref, CodegenModel.unwrap. cbn [bind]. assert (E : pil_number z = z).
  { unfold pil_number. rewrite (proj2 (Z.ltb_ge z 0)) by lia. rewrite Z.rem_small by lia. apply Z.mod_small. lia. }
  rewrite E. rewrite (proj2 (Z.leb_le (- 2 ^ 127) z)) by lia. rewrite (proj2 (Z.ltb_lt z (2 ^ 127))) by (assert (2 ^ 64 < 2 ^ 127)%Z by reflexivity; lia). rewrite (proj2 (Z.ltb_lt z GLP)) by lia. eexists. reflexivity.
Qed.
Section Plain.
  Variables (a : analyzed) (deg : nat) (o : exported) (ids : idmap).
  Hypothesis HP : plain_an a deg.
  Hypothesis HS : sound_pil a.
  Hypothesis Hids : intermediate_ids a = Ok ids.
  Hypothesis Hinv : inv a ids (an_order a) o.
  Hypothesis Hmade : made a ids (fun e => exists x, In x (an_order a) /\ In e (sources a x)) (ex_exps (xp_ex o)).
  Local Notation tbl := (ex_exps (xp_ex o)).
  Lemma full : columns_full a.
  Proof.
    intros nm s vals Hn E. pose proof (sp_stmts _ HS) as H. rewrite Forall_forall in H. destruct (H _ Hn) as [[s' [_ [_ C]]]|[s' [v' [_ [B [_ [D _]]]]]]]; [congruence|]. rewrite E in B. injection B as -> ->. exact D.
  Qed.
  Lemma pub_len : List.length (xp_publics o) = List.length (pubs_of a (an_order a)).
  Proof. pose proof (v_pub _ _ _ _ Hinv) as H. induction H; cbn; congruence. Qed.
  Lemma defined_once i e nx : once a false (ARef (i, Intermediate) nx) -> defines a i e -> once a nx e.
  Proof. intros H D. inversion H as [| |? ? ? _ K| | | | |]; subst. specialize (K e D). now rewrite orb_false_r in K. Qed.
  Lemma json_pil : forall e d j0, to_json a ids e = Ok (d, j0) -> bounded a e -> pil_expr (List.length tbl) (an_ncm a) (an_nconst a) (List.length (xp_publics o)) j0.
  Proof.
    induction e as [[i t] nx|n|i|z|op x IHx y IHy|x IHx]; intros d j0 H B; cbn [to_json bounded] in *.
    - unfold poly_ref in H. apply bind_ok in H. destruct H as [k [E H]]. injection H as <- <-. constructor; [|constructor]. unfold pil_op. cbn [e_op e_id]. destruct t; cbn [ref_op is_im] in *.
      + injection E as <-. intros i0 [= <-]. exact B.
      + injection E as <-. intros i0 [= <-]. exact B.
      + intros i0 [= <-]. assert (E' : assoc Nat.eqb ids i = Some k) by (destruct (assoc Nat.eqb ids i); [injection E as ->; reflexivity | discriminate E]).
        destruct (im_at _ _ _ _ _ full Hids Hinv E') as [e' [_ [d' [j1 [j [_ [N _]]]]]]]. apply nth_error_Some. congruence.
    - apply bind_ok in H. destruct H as [q [E H]]. injection H as <- <-. constructor; [|constructor]. unfold pil_op. cbn. intros i0 [= <-]. assert (E' : an_pubs a n = Some q) by (destruct (an_pubs a n); [injection E as ->; reflexivity | discriminate E]).
      rewrite pub_len. apply nth_error_Some. rewrite (pa_named _ _ HP _ _ E'). discriminate.
    - destruct B.
    - injection H as <- <-. constructor; [|constructor]. unfold pil_op. cbn [E_number E_new e_op e_value]. exact (number_small z B).
    - destruct B as [Bo [Bx By]]. apply bind_ok in H. destruct H as [[dl jl] [E1 H]]. apply bind_ok in H. destruct H as [[dr jr] [E2 H]]. pose proof (IHx _ _ E1 Bx) as X. pose proof (IHy _ _ E2 By) as Y.
      destruct op; [| | |destruct (Bo eq_refl)]; injection H as <- <-; (constructor; [unfold pil_op; cbn; lia | cbn; constructor; [exact X | constructor; [exact Y | constructor]]]).
    - apply bind_ok in H. destruct H as [[d1 j1] [E1 H]]. injection H as <- <-. constructor; [exact Logic.I | cbn; constructor; [exact (IHx _ _ E1 B) | constructor]].
  Qed.
  Lemma like_pil n m c b j j0 : like j j0 -> pil_expr n m c b j0 -> pil_expr n m c b j.
  Proof. intros L [A B]. destruct (like_parts _ _ L) as [L1 [L2 [L3 [L4 [L5 L6]]]]]. constructor; [|now rewrite L5]. unfold pil_op in *. rewrite L1, L2, L4, L5, L6. exact A. Qed.
  Lemma json_flat : forall e d j0, to_json a ids e = Ok (d, j0) -> once a true e -> flat_expr j0.
  Proof.
    induction e as [[i t] nx|n|i|z|op x IHx y IHy|x IHx]; intros d j0 H O; cbn [to_json] in H.
    - unfold poly_ref in H. apply bind_ok in H. destruct H as [k [E H]]. injection H as <- <-. constructor; [cbn [e_next] | constructor].
      inversion O as [? ? ? K|? ? ? K|? ? ? K _| | | | |]; subst; rewrite andb_true_r in K; exact K.
    - apply bind_ok in H. destruct H as [q [E H]]. injection H as <- <-. constructor; [reflexivity | constructor].
    - injection H as <- <-. constructor; [reflexivity | constructor].
    - injection H as <- <-. constructor; [reflexivity | constructor].
    - inversion O as [| | | | | |? ? ? ? K1 K2 K3|]; subst. apply bind_ok in H. destruct H as [[dl jl] [E1 H]]. apply bind_ok in H. destruct H as [[dr jr] [E2 H]]. pose proof (IHx _ _ E1 K2) as X. pose proof (IHy _ _ E2 K3) as Y.
      destruct op; [| | |destruct (K1 eq_refl)]; injection H as <- <-; (constructor; [reflexivity | cbn; constructor; [exact X | constructor; [exact Y | constructor]]]).
    - inversion O as [| | | | | | |? ? K]; subst. apply bind_ok in H. destruct H as [[d1 j1] [E1 H]]. injection H as <- <-. constructor; [reflexivity | cbn; constructor; [exact (IHx _ _ E1 K) | constructor]].
  Qed.
  Lemma like_flat j j0 : like j j0 -> flat_expr j0 -> flat_expr j.
  Proof. intros L [A B]. destruct (like_parts _ _ L) as [L1 [L2 [L3 [L4 [L5 L6]]]]]. constructor; [now rewrite L3 | now rewrite L5]. Qed.
  (* what an exported expression refers to comes from what the expression refers to *)
  Lemma json_refs : forall e d j0 p q k, to_json a ids e = Ok (d, j0) -> once a p e -> In (q, k) (exp_refs p j0) -> exists e', at_ a ids tbl e' k /\ once a q e'.
  Proof.
    induction e as [[i t] nx|n|i|z|op x IHx y IHy|x IHx]; intros d j0 p q k H O R; cbn [to_json] in H; rewrite exp_refs_eq in R.
    - unfold poly_ref in H. apply bind_ok in H. destruct H as [k0 [E H]]. injection H as <- <-. cbn [e_op e_id e_next e_values exps_refs] in R. rewrite app_nil_r in R. destruct t; cbn [ref_op] in R; try (destruct R; fail).
      destruct R as [R|[]]. injection R as <- <-. cbn [is_im] in E. assert (E' : assoc Nat.eqb ids i = Some k0) by (destruct (assoc Nat.eqb ids i); [injection E as ->; reflexivity | discriminate E]).
      destruct (im_at _ _ _ _ _ full Hids Hinv E') as [e' [D A]]. exists e'. split; [exact A|]. inversion O as [| |? ? ? _ K| | | | |]; subst. exact (K e' D).
    - apply bind_ok in H. destruct H as [d0 [E H]]. injection H as <- <-. destruct R.
    - injection H as <- <-. destruct R.
    - injection H as <- <-. destruct R.
    - inversion O as [| | | | | |? ? ? ? K1 K2 K3|]; subst. apply bind_ok in H. destruct H as [[dl jl] [E1 H]]. apply bind_ok in H. destruct H as [[dr jr] [E2 H]].
      assert (R' : In (q, k) (exp_refs p jl ++ exp_refs p jr)) by (destruct op; [| | |destruct (K1 eq_refl)]; injection H as <- <-; cbn [E_add E_sub E_mul E_new e_op e_id e_values exps_refs app] in R; rewrite app_nil_r in R; exact R).
      apply in_app_or in R'. destruct R' as [R'|R']; [exact (IHx _ _ _ _ _ E1 K2 R') | exact (IHy _ _ _ _ _ E2 K3 R')].
    - inversion O as [| | | | | | |? ? K]; subst. apply bind_ok in H. destruct H as [[d1 j1] [E1 H]]. injection H as <- <-. cbn [E_neg E_new e_op e_id e_values exps_refs app] in R. rewrite app_nil_r in R. exact (IHx _ _ _ _ _ E1 K R).
  Qed.
  Lemma like_refs p j j0 : like j j0 -> exp_refs p j = exp_refs p j0.
  Proof. intros L. destruct (like_parts _ _ L) as [L1 [L2 [L3 [L4 [L5 L6]]]]]. rewrite !exp_refs_eq, L1, L2, L3, L5. reflexivity. Qed.
  Lemma primed_src k : primed tbl k -> exists e, at_ a ids tbl e k /\ once a true e.
  Proof.
    induction 1 as [i e j Hi Hr|i e p j _ [e0 [[d [j0 [j1 [E [N L]]]]] O]] Hi Hr].
    - pose proof Hmade as M. unfold made in M. rewrite Forall_forall in M. destruct (M e (nth_error_In _ _ Hi)) as [s [d [j0 [[x [Hx Hs]] [E L]]]]]. destruct (pa_exprs _ _ HP x s Hx Hs) as [_ O].
      rewrite (like_refs _ _ _ L) in Hr. exact (json_refs _ _ _ _ _ _ E O Hr).
    - assert (e = j1) by congruence. subst j1. rewrite (like_refs _ _ _ L) in Hr. destruct (json_refs _ _ _ _ _ _ E O Hr) as [e' [A B]]. exists e'. split; [exact A|].
      clear -Hr B. assert (p = true); [|now subst].
      revert Hr. induction j0 as [op id next value values c kp IH] using expr_ind'. rewrite exp_refs_eq. cbn [e_op e_id e_next e_values]. intros R. apply in_app_or in R. destruct R as [R|R].
      + destruct op, id; try (destruct R; fail). destruct R as [R|[]]. injection R as R _. now rewrite orb_true_r in R.
      + induction values as [|v vs IHv]; [destruct R|]. cbn [exps_refs] in R. apply in_app_or in R. destruct R as [R|R]; [exact (Forall_inv IH R) | exact (IHv (Forall_inv_tail IH) R)].
  Qed.
  Lemma plain_of l1 : plain_pil (pil_of a deg l1 o).
  Proof.
    constructor; cbn [pil_of pil_lookups pil_perms pil_conns pil_exps pil_ids pil_ncm pil_nconst pil_publics pil_deg].
    - destruct Hinv as [V1 V2 V3 V4 V5 V6]. rewrite (kind_nil a deg KPlookup HP) in V2 by discriminate. rewrite (kind_nil a deg KPermutation HP) in V3 by discriminate. rewrite (kind_nil a deg KConnect HP) in V4 by discriminate. inversion V2. inversion V3. inversion V4. repeat split.
    - apply Forall_forall. intros j Hj. pose proof Hmade as M. unfold made in M. rewrite Forall_forall in M. destruct (M j Hj) as [e [d [j0 [[x [Hx He]] [E L]]]]]. apply (like_pil _ _ _ _ _ _ L). exact (json_pil _ _ _ E (proj1 (pa_exprs _ _ HP x e Hx He))).
    - pose proof (v_pol _ _ _ _ Hinv) as V. clear -V. induction V as [|d i ds is' [e [_ [d0 [j0 [j [_ [N _]]]]]]] _ IH]; constructor; [apply nth_error_Some; congruence | exact IH].
    - pose proof (v_pub _ _ _ _ Hinv) as V. assert (H : forall d, In d (pubs_of a (an_order a)) -> exists id, pd_poly d = Some (id, Committed) /\ id + elem_of d < an_ncm a /\ pd_row d < deg).
      { intros d Hd. unfold pubs_of in Hd. apply in_flat_map in Hd. destruct Hd as [x [Hx Hd]]. destruct x as [nm|nm|i]; try (destruct Hd; fail). destruct (an_pubs a nm) as [d'|] eqn:E; [|destruct Hd]. destruct Hd as [<-|[]]. exact (pa_pubs _ _ HP nm d' Hx E). }
      clear -V H. induction V as [|d b ds bs [id [t [i [A [B C]]]]] _ IH]; constructor; [|apply IH; intros d' Hd'; apply H; now right].
      destruct (H d (or_introl eq_refl)) as [id' [A' [B' C']]]. rewrite A in A'. injection A' as -> ->. cbn [is_im] in C. subst b i. cbn [pb_kind pb_pol pb_idx pub_type]. split; [reflexivity|]. split; [exact B' | intros d' [= <-]; exact C'].
    - intros j e Hj He. destruct (primed_src j Hj) as [s [[d [j0 [j1 [E [N L]]]]] O]]. assert (e = j1) by congruence. subst j1. exact (like_flat _ _ L (json_flat _ _ _ E O)).
  Qed.
End Plain.

(** ** the rows of the table *)
(* the cell of a column, the rows being counted modulo their number; the value of a public is its cell *)
Definition cell_at (N : nat) (p : pols) (c r : nat) : F3G := of_k (if c <? nPols p then kconst (cellv (p_array p) c (r mod N)) else kzero).
Definition public_at (a : analyzed) (cp : pols) (n : name) : F3G :=
  match an_pubs a n with
  | Some d => match pd_poly d with Some (id, _) => of_k (kconst (cellv (p_array cp) (id + elem_of d) (pd_row d))) | None => e_ZERO end
  | None => e_ZERO
  end.
Definition number_at (z : Z) : F3G := of_k (match number_ref (Some z) with Ok v => val v | _ => kzero end).
(* every identity of the analysed PIL is zero in every row *)
Definition rows_hold (a : analyzed) (N : nat) (cp kp : pols) : Prop :=
  forall chal i x d e v, i < N -> In (SIdentity x) (an_order a) -> nth_error (an_ids a) x = Some d -> id_kind d = KPolynomial -> se_sel (id_left d) = Some e ->
    ev a (cell_at N cp) (cell_at N kp) (public_at a cp) chal number_at i e v -> val v = kzero.
Lemma kind_in a k xs d : In d (of_kind a k xs) -> exists i, In (SIdentity i) xs /\ nth_error (an_ids a) i = Some d /\ id_kind d = k.
Proof.
  intros H. unfold of_kind in H. apply in_flat_map in H. destruct H as [x [Hx H]]. destruct x as [nm|nm|i]; try (destruct H; fail). destruct (nth_error (an_ids a) i) as [d'|] eqn:E; [|destruct H].
  destruct (ikind_eqb (id_kind d') k) eqn:Ek; [|destruct H]. destruct H as [<-|[]]. exists i. split; [exact Hx|]. split; [exact E|]. destruct (id_kind d'), k; try discriminate Ek; reflexivity.
Qed.
Lemma fall2_in {A B} (R : A -> B -> Prop) l l' y : Forall2 R l l' -> In y l' -> exists x, In x l /\ R x y.
Proof. induction 1 as [|x y' l l' H _ IH]; intros Hy; [destruct Hy|]. destruct Hy as [<-|Hy]; [exists x; split; [now left | exact H]|]. destruct (IH Hy) as [x' [A1 A2]]. exists x'. split; [now right | exact A2]. Qed.
Lemma fall2_at {A B} (R : A -> B -> Prop) l l' i x : Forall2 R l l' -> nth_error l i = Some x -> exists y, nth_error l' i = Some y /\ R x y.
Proof. intros H. revert i. induction H as [|x0 y0 l l' H _ IH]; intros i Hi; [destruct i; discriminate Hi|]. destruct i; [injection Hi as <-; exists y0; auto | exact (IH i Hi)]. Qed.
Lemma table_of a deg o ids si sg cp kp : plain_an a deg -> sound_pil a -> intermediate_ids a = Ok ids -> inv a ids (an_order a) o ->
  st_publics sg = xp_publics o -> rows_hold a (2 ^ si_nbits si) cp kp -> table_ok si sg (ex_exps (xp_ex o)) (xp_pols o) cp kp.
Proof.
  intros HP HS Hids Hinv Hpub HR i ch j v Hi Hj D. destruct (fall2_in _ _ _ _ (v_pol _ _ _ _ Hinv) Hj) as [d [Hd [e [Es [d0 [j0 [j1 [E [N L]]]]]]]]]. destruct (kind_in _ _ _ _ Hd) as [x [Hx [Ex Ek]]].
  apply (HR (fun k => of_k (val (nth k ch e_ZERO))) i x d e v Hi Hx Ex Ek Es).
  set (rho := table_row si cp kp (map (pub_value cp) (st_publics sg)) ch) in *. set (pubs := fun k => of_k (val (nth k (map (pub_value cp) (st_publics sg)) e_ZERO))).
  inversion D as [| | | | | | |p0 e0 i0 e' v0 Ho Hi0 Hn Ht D'| | | | | | | | | |]; subst; try discriminate. cbn in Hi0, D'. injection Hi0 as <-. assert (e' = j1) by congruence. subst e'.
  assert (HN : forall n d, an_pubs a n = Some d -> pubs (pd_id d) = public_at a cp n).
  { intros n q Eq. pose proof (pa_named _ _ HP n q Eq) as Hq. destruct (fall2_at _ _ _ _ _ (v_pub _ _ _ _ Hinv) Hq) as [b [Hb [id [t [k [A [B C]]]]]]].
    assert (Hin : exists m, In (SPublic m) (an_order a) /\ an_pubs a m = Some q).
    { pose proof (nth_error_In _ _ Hq) as Hd'. unfold pubs_of in Hd'. apply in_flat_map in Hd'. destruct Hd' as [y [Hy Hd']]. destruct y as [nm|nm|y]; try (destruct Hd'; fail). destruct (an_pubs a nm) as [q'|] eqn:E'; [|destruct Hd']. destruct Hd' as [->|[]]. exists nm. auto. }
    destruct Hin as [m [Hm Em]]. destruct (pa_pubs _ _ HP m q Hm Em) as [id' [A' _]]. rewrite A in A'. injection A' as -> ->. cbn [is_im] in C. subst b k.
    unfold pubs, public_at. rewrite Eq, A, Hpub. rewrite (nth_error_nth (map (pub_value cp) (xp_publics o)) (pd_id q) e_ZERO (x := pub_value cp (mkPub PcmP (id' + elem_of q) (pd_row q)))); [reflexivity|].
    rewrite nth_error_map, Hb. reflexivity. }
  refine (den_ev a (cell_at (2 ^ si_nbits si) cp) (cell_at (2 ^ si_nbits si) kp) (public_at a cp) _ number_at (fun i n => rho i n) pubs HN ids o (full a HS) Hids Hinv i false j1 v _ e d0 j0 E L).
  refine (den_ext _ _ _ _ _ _ _ D'). intros n. unfold row_rho, rho, table_row. destruct (n_ty n) eqn:En; try (rewrite En; reflexivity); try reflexivity.
  - unfold cell_at, nrow. destruct (n_prime n); [now rewrite Nat.add_1_r | now rewrite Nat.mod_small].
  - unfold cell_at, nrow. destruct (n_prime n); [now rewrite Nat.add_1_r | now rewrite Nat.mod_small].
  - destruct (n_value n) as [z|] eqn:Ez; [reflexivity | reflexivity].
Qed.

(** ** every intermediate polynomial has one definition *)
Definition defs (a : analyzed) (xs : list statement) : list (nat * aexpr) :=
  flat_map (fun x => match x with SDefinition nm => match an_ims a nm with Some (s, vals) => im_pairs s vals | None => [] end | _ => [] end) xs.
Lemma fst_pairs s vals : List.length vals = sym_count s -> map fst (im_pairs s vals) = map (fun k => sy_id s + k) (seq 0 (sym_count s)).
Proof.
  intros H. unfold im_pairs. assert (G : forall (l : list nat) (v : list aexpr), List.length v = List.length l -> map fst (combine l v) = l).
  { induction l as [|x l IH]; intros [|y v] E; try reflexivity; try discriminate E. cbn. rewrite IH; [reflexivity | now injection E]. }
  apply G. now rewrite map_length, seq_length.
Qed.
Lemma fst_defs a xs : Forall (sound_stmt a) xs -> forall n, map fst (positions a n xs) = map fst (defs a xs).
Proof.
  induction 1 as [|x xs Hx _ IH]; intros n; [reflexivity|]. cbn [positions defs flat_map]. rewrite !map_app, IH. f_equal. destruct x as [nm|nm|i]; [|reflexivity | reflexivity].
  destruct Hx as [[s [_ [_ ->]]]|[s [vals [_ [-> [_ [D _]]]]]]]; [reflexivity|]. rewrite (fst_pairs _ _ D), map_map. reflexivity.
Qed.
Lemma nodup_fst {B} (l : list (nat * B)) i x y : NoDup (map fst l) -> In (i, x) l -> In (i, y) l -> x = y.
Proof.
  induction l as [|[j z] l IH]; intros N H1 H2; [destruct H1|]. cbn [map fst] in N. inversion N as [|? ? N1 N2]; subst.
  destruct H1 as [H1|H1], H2 as [H2|H2]; [congruence | | |exact (IH N2 H1 H2)].
  - injection H1 as -> ->. destruct N1. apply in_map_iff. exists (i, y). auto.
  - injection H2 as -> ->. destruct N1. apply in_map_iff. exists (i, x). auto.
Qed.
Lemma pairs_nth s : forall (vals : list aexpr) b n k e, nth_error vals k = Some e -> k < n -> In (sy_id s + (b + k), e) (combine (map (fun k => sy_id s + k) (seq b n)) vals).
Proof.
  induction vals as [|v vals IH]; intros b n k e H Hk; [destruct k; discriminate H|]. destruct n; [lia|]. cbn [seq map combine]. destruct k; [injection H as ->; left; f_equal; lia|].
  right. replace (b + S k) with (S b + k) by lia. apply IH; [exact H | lia].
Qed.
Lemma defines_in a i e : defines a i e -> In (i, e) (defs a (an_order a)).
Proof.
  intros [nm [s [vals [k [Hn [Hi [Hk [Hv ->]]]]]]]]. unfold defs. apply in_flat_map. exists (SDefinition nm). split; [exact Hn|]. rewrite Hi. exact (pairs_nth s vals 0 _ k e Hv Hk).
Qed.
Lemma one_definition a i e e' : sound_pil a -> defines a i e -> defines a i e' -> e = e'.
Proof. intros HS D D'. apply (nodup_fst (defs a (an_order a)) i); [rewrite <- (fst_defs a _ (sp_stmts _ HS) 0); exact (sp_nodup _ HS) | exact (defines_in _ _ _ D) | exact (defines_in _ _ _ D')]. Qed.

(** ** the meaning of the exported PIL *)
Theorem export_meaning : forall a, sound_pil a -> exists o ids, export a = Ok o /\ List.length (ex_exps (xp_ex o)) = total a (an_order a) /\
  Forall2 (becomes_pub ids) (pubs_of a (an_order a)) (xp_publics o) /\
  forall cm cn pubv chal numv other pubs, (forall n d, an_pubs a n = Some d -> pubs (pd_id d) = pubv n) ->
  let M := means a cm cn pubv chal numv other pubs o in
    (forall i k, assoc Nat.eqb ids i = Some k -> exists e, defines a i e /\ M e k) /\
    Forall2 (fun d i => exists e, se_sel (id_left d) = Some e /\ M e i) (of_kind a KPolynomial (an_order a)) (xp_pols o) /\
    Forall2 (means_arg a cm cn pubv chal numv other pubs o) (of_kind a KPlookup (an_order a)) (xp_lookups o) /\
    Forall2 (means_arg a cm cn pubv chal numv other pubs o) (of_kind a KPermutation (an_order a)) (xp_perms o) /\
    Forall2 (fun d x => means_all a cm cn pubv chal numv other pubs o (se_exps (id_left d)) (ArgModel.ci_pols x) /\ means_all a cm cn pubv chal numv other pubs o (se_exps (id_right d)) (ArgModel.ci_conns x))
      (of_kind a KConnect (an_order a)) (xp_conns o).
Proof.
  intros a HS. destruct (export_total a HS) as [o [E L]]. destruct (export_inv a o E) as [ids [Hids Hinv]]. exists o, ids. split; [exact E|]. split; [exact L|]. split; [exact (v_pub _ _ _ _ Hinv)|].
  intros cm cn pubv chal numv other pubs HN M. split.
  - intros i k Hk. destruct (im_at _ _ _ _ _ (full a HS) Hids Hinv Hk) as [e [D A]]. exists e. split; [exact D|]. exact (at_means a cm cn pubv chal numv other pubs HN ids o (full a HS) Hids Hinv (fun i e e' => one_definition a i e e' HS) e k A).
  - exact (all_means a cm cn pubv chal numv other pubs HN ids o (full a HS) Hids Hinv (fun i e e' => one_definition a i e e' HS)).
Qed.
(* a public on a constant column is exported with a type the prover does not know *)
Theorem const_public a o ids : intermediate_ids a = Ok ids -> inv a ids (an_order a) o -> forall k d id, nth_error (pubs_of a (an_order a)) k = Some d -> pd_poly d = Some (id, Constant) ->
  exists p, nth_error (xp_publics o) k = Some p /\ forall si code m i, public_value si code m i p = Panic.
Proof.
  intros Hids Hinv k d id Hd Hp. destruct (fall2_at _ _ _ _ _ (v_pub _ _ _ _ Hinv) Hd) as [b [Hb [id' [t [i [A [B C]]]]]]]. exists b. split; [exact Hb|]. rewrite Hp in A. injection A as <- <-. subst b. intros si code m j. reflexivity.
Qed.
Theorem const_public_panics : forall a o k d id, export a = Ok o -> nth_error (pubs_of a (an_order a)) k = Some d -> pd_poly d = Some (id, Constant) ->
  exists p, nth_error (xp_publics o) k = Some p /\ forall si code m i, public_value si code m i p = Panic.
Proof. intros a o k d id E. destruct (export_inv a o E) as [ids [Hids Hinv]]. exact (const_public a o ids Hids Hinv k d id). Qed.
