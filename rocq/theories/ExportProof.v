(* The exported PIL means what the analysed PIL means. *)
From Verif Require Import Base GlModel F3gModel ListAux VerifierModel StageModel CodegenModel CodegenProof ArgStages ExportModel.
From Verif Require ArgModel.
Open Scope nat_scope.
Open Scope list_scope.
Open Scope res_scope.

(* [defines a i e]: e is the expression of the intermediate polynomial i *)
Definition defines (a : analyzed) (i : nat) (e : aexpr) : Prop :=
  exists nm s vals k, In (SDefinition nm) (an_order a) /\ an_ims a nm = Some (s, vals) /\ k < sym_count s /\ nth_error vals k = Some e /\ i = sy_id s + k.
(* the same expression, perhaps with a quotient number *)
Definition like (j j0 : expr) : Prop := j = j0 \/ j = set_q j0.
Lemma like_parts j j0 : like j j0 -> e_op j = e_op j0 /\ e_id j = e_id j0 /\ e_next j = e_next j0 /\ e_value j = e_value j0 /\ e_values j = e_values j0 /\ e_const j = e_const j0.
Proof. intros [->| ->]; [|destruct j0]; repeat split; reflexivity. Qed.
Definition at_ (a : analyzed) (ids : idmap) (l : list expr) (e : aexpr) (i : nat) : Prop :=
  exists d j0 j, to_json a ids e = Ok (d, j0) /\ nth_error l i = Some j /\ like j j0.
Lemma at_app a ids l l' e i : at_ a ids l e i -> at_ a ids (l ++ l') e i.
Proof. intros [d [j0 [j [A [B C]]]]]. exists d, j0, j. split; [exact A|]. split; [|exact C]. rewrite nth_error_app1; [exact B | apply nth_error_Some; congruence]. Qed.
Definition grows (x x' : exporter) : Prop := exists l, ex_exps x' = ex_exps x ++ l.
Lemma grows_refl x : grows x x. Proof. exists []. now rewrite app_nil_r. Qed.
Lemma grows_trans x y z : grows x y -> grows y z -> grows x z.
Proof. intros [l A] [l' B]. exists (l ++ l'). now rewrite B, A, app_assoc. Qed.
Lemma at_grows a ids x x' e i : grows x x' -> at_ a ids (ex_exps x) e i -> at_ a ids (ex_exps x') e i.
Proof. intros [l ->]. apply at_app. Qed.

Section Steps.
  Variables (a : analyzed) (ids : idmap).
  Lemma extract_ok x e m i x' : extract a ids x e m = Ok (i, x') -> grows x x' /\ at_ a ids (ex_exps x') e i /\ i = List.length (ex_exps x) /\ List.length (ex_exps x') = S i.
  Proof.
    unfold extract. intros H. apply bind_ok in H. destruct H as [[d j] [E H]]. destruct (m <? d); injection H as <- <-; cbn [ex_exps];
      (split; [eexists; reflexivity|]); (split; [exists d, j; eexists; split; [exact E|]; split; [rewrite nth_error_app2 by lia; rewrite Nat.sub_diag; reflexivity | unfold like; auto]|]); (split; [reflexivity | rewrite app_length; cbn; lia]).
  Qed.
  Lemma extract_opt_ok x e m i x' : extract_opt a ids x e m = Ok (i, x') -> grows x x' /\
    match e, i with Some e, Some i => at_ a ids (ex_exps x') e i | None, None => True | _, _ => False end /\
    List.length (ex_exps x') = List.length (ex_exps x) + (match e with Some _ => 1 | None => 0 end).
  Proof.
    unfold extract_opt. intros H. destruct e as [e|]; [|injection H as <- <-; split; [apply grows_refl|]; split; [exact Logic.I | lia]].
    apply bind_ok in H. destruct H as [[k y] [E H]]. injection H as <- <-. cbn [fst snd]. destruct (extract_ok _ _ _ _ _ E) as [A [B [C D]]]. split; [exact A|]. split; [exact B | lia].
  Qed.
  Lemma extract_vec_ok m l : forall x v x', extract_vec a ids x l m = Ok (v, x') -> grows x x' /\ Forall2 (at_ a ids (ex_exps x')) l v /\ List.length (ex_exps x') = List.length (ex_exps x) + List.length l.
  Proof.
    induction l as [|e l IH]; intros x v x' H; cbn [extract_vec] in H.
    - injection H as <- <-. split; [apply grows_refl|]. split; [constructor | cbn; lia].
    - apply bind_ok in H. destruct H as [[i y] [E H]]. cbn [fst snd] in H. apply bind_ok in H. destruct H as [[v' z] [E2 H]]. injection H as <- <-. cbn [fst snd].
      destruct (extract_ok _ _ _ _ _ E) as [A [B [C D]]]. destruct (IH _ _ _ E2) as [A2 [B2 C2]]. split; [exact (grows_trans _ _ _ A A2)|]. split; [constructor; [exact (at_grows _ _ _ _ _ _ A2 B) | exact B2] | cbn; lia].
  Qed.
  Lemma extract_ims_ok l : forall x x', extract_ims a ids x l = Ok x' -> grows x x' /\ List.length (ex_exps x') = List.length (ex_exps x) + List.length l /\
    forall pid e, In (pid, e) l -> exists i, assoc Nat.eqb ids pid = Some i /\ at_ a ids (ex_exps x') e i.
  Proof.
    induction l as [|[pid e] l IH]; intros x x' H; cbn [extract_ims] in H.
    - injection H as <-. split; [apply grows_refl|]. split; [cbn; lia | intros ? ? []].
    - apply bind_ok in H. destruct H as [[i y] [E H]]. cbn [fst snd] in H. apply bind_ok in H. destruct H as [i' [E2 H]]. destruct (Nat.eqb_spec i i') as [<-|]; [|discriminate H].
      destruct (extract_ok _ _ _ _ _ E) as [A [B [C D]]]. destruct (IH _ _ H) as [A2 [C2 B2]]. split; [exact (grows_trans _ _ _ A A2)|]. split; [cbn; lia|].
      intros pid' e' [F|F]; [|exact (B2 _ _ F)]. injection F as <- <-. exists i. split; [|exact (at_grows _ _ _ _ _ _ A2 B)]. destruct (assoc Nat.eqb ids pid); [now injection E2 as -> | discriminate E2].
  Qed.

  (* what an identity of the PIL becomes *)
  Definition pair_of (l : list expr) (d : identity) (f : option (list nat)) (t : option (list nat)) (sf st : option nat) : Prop :=
    exists fv tv, f = Some fv /\ t = Some tv /\ Forall2 (at_ a ids l) (se_exps (id_left d)) fv /\ Forall2 (at_ a ids l) (se_exps (id_right d)) tv /\
      match se_sel (id_left d), sf with Some e, Some i => at_ a ids l e i | None, None => True | _, _ => False end /\
      match se_sel (id_right d), st with Some e, Some i => at_ a ids l e i | None, None => True | _, _ => False end.
  Definition becomes_pol (l : list expr) (d : identity) (i : nat) : Prop := exists e, se_sel (id_left d) = Some e /\ at_ a ids l e i.
  Definition becomes_arg (l : list expr) (d : identity) (x : ArgModel.lident) : Prop := pair_of l d (ArgModel.l_f x) (ArgModel.l_t x) (ArgModel.l_selF x) (ArgModel.l_selT x).
  Definition becomes_conn (l : list expr) (d : identity) (x : ArgModel.cident) : Prop :=
    exists fv tv, ArgModel.ci_pols x = Some fv /\ ArgModel.ci_conns x = Some tv /\ Forall2 (at_ a ids l) (se_exps (id_left d)) fv /\ Forall2 (at_ a ids l) (se_exps (id_right d)) tv.
  Definition becomes_pub (d : pubdecl) (x : public) : Prop := exists id t i, pd_poly d = Some (id, t) /\ x = mkPub (pub_type t) i (pd_row d) /\
    let k := id + match pd_elem d with Some k => k | None => 0 end in (if is_im t then assoc Nat.eqb ids k = Some i else i = k).
End Steps.

(* the statements of one kind, in the order of the source *)
Definition ikind_eqb (x y : ikind) : bool := match x, y with KPolynomial, KPolynomial | KPlookup, KPlookup | KPermutation, KPermutation | KConnect, KConnect => true | _, _ => false end.
Definition of_kind (a : analyzed) (k : ikind) (xs : list statement) : list identity :=
  flat_map (fun x => match x with SIdentity i => match nth_error (an_ids a) i with Some d => if ikind_eqb (id_kind d) k then [d] else [] | None => [] end | _ => [] end) xs.
Definition pubs_of (a : analyzed) (xs : list statement) : list pubdecl :=
  flat_map (fun x => match x with SPublic n => match an_pubs a n with Some d => [d] | None => [] end | _ => [] end) xs.
Definition im_pairs (s : symbol) (vals : list aexpr) : list (nat * aexpr) := combine (map (fun k => sy_id s + k) (seq 0 (sym_count s))) vals.
Definition all_at (a : analyzed) (ids : idmap) (xs : list statement) (l : list expr) : Prop :=
  forall nm s vals pid e, In (SDefinition nm) xs -> an_ims a nm = Some (s, vals) -> In (pid, e) (im_pairs s vals) -> exists i, assoc Nat.eqb ids pid = Some i /\ at_ a ids l e i.
Record inv (a : analyzed) (ids : idmap) (xs : list statement) (o : exported) : Prop := {
  v_pol : Forall2 (becomes_pol a ids (ex_exps (xp_ex o))) (of_kind a KPolynomial xs) (xp_pols o);
  v_look : Forall2 (becomes_arg a ids (ex_exps (xp_ex o))) (of_kind a KPlookup xs) (xp_lookups o);
  v_perm : Forall2 (becomes_arg a ids (ex_exps (xp_ex o))) (of_kind a KPermutation xs) (xp_perms o);
  v_conn : Forall2 (becomes_conn a ids (ex_exps (xp_ex o))) (of_kind a KConnect xs) (xp_conns o);
  v_pub : Forall2 (becomes_pub ids) (pubs_of a xs) (xp_publics o);
  v_ims : all_at a ids xs (ex_exps (xp_ex o)) }.

Lemma fall2_impl {X Y} (R S : X -> Y -> Prop) l l' : (forall x y, R x y -> S x y) -> Forall2 R l l' -> Forall2 S l l'.
Proof. intros H. induction 1; constructor; auto. Qed.
Lemma fall2_snoc {X Y} (R : X -> Y -> Prop) l l' x y : Forall2 R l l' -> R x y -> Forall2 R (l ++ [x]) (l' ++ [y]).
Proof. intros H K. apply Forall2_app; [exact H | constructor; [exact K | constructor]]. Qed.

Section Fold.
  Variables (a : analyzed) (ids : idmap).
  Lemma pol_grows x x' d i : grows x x' -> becomes_pol a ids (ex_exps x) d i -> becomes_pol a ids (ex_exps x') d i.
  Proof. intros G [e [A B]]. exists e. split; [exact A | exact (at_grows _ _ _ _ _ _ G B)]. Qed.
  Lemma opt_grows x x' (s : option aexpr) (i : option nat) : grows x x' -> match s, i with Some e, Some i => at_ a ids (ex_exps x) e i | None, None => True | _, _ => False end ->
    match s, i with Some e, Some i => at_ a ids (ex_exps x') e i | None, None => True | _, _ => False end.
  Proof. intros G. destruct s, i; auto. apply at_grows, G. Qed.
  Lemma vec_grows x x' l v : grows x x' -> Forall2 (at_ a ids (ex_exps x)) l v -> Forall2 (at_ a ids (ex_exps x')) l v.
  Proof. intros G. apply fall2_impl. intros e i. apply at_grows, G. Qed.
  Lemma arg_grows x x' d l : grows x x' -> becomes_arg a ids (ex_exps x) d l -> becomes_arg a ids (ex_exps x') d l.
  Proof. intros G [fv [tv [A [B [C [D [E F]]]]]]]. exists fv, tv. split; [exact A|]. split; [exact B|]. split; [exact (vec_grows _ _ _ _ G C)|]. split; [exact (vec_grows _ _ _ _ G D)|]. split; [exact (opt_grows _ _ _ _ G E) | exact (opt_grows _ _ _ _ G F)]. Qed.
  Lemma conn_grows x x' d l : grows x x' -> becomes_conn a ids (ex_exps x) d l -> becomes_conn a ids (ex_exps x') d l.
  Proof. intros G [fv [tv [A [B [C D]]]]]. exists fv, tv. split; [exact A|]. split; [exact B|]. split; [exact (vec_grows _ _ _ _ G C) | exact (vec_grows _ _ _ _ G D)]. Qed.
  Lemma ims_grows x x' xs : grows x x' -> all_at a ids xs (ex_exps x) -> all_at a ids xs (ex_exps x').
  Proof. intros G H nm s vals pid e A B C. destruct (H _ _ _ _ _ A B C) as [i [D E]]. exists i. split; [exact D | exact (at_grows _ _ _ _ _ _ G E)]. Qed.
  Lemma all_snoc xs x l : all_at a ids xs l -> (forall nm s vals pid e, x = SDefinition nm -> an_ims a nm = Some (s, vals) -> In (pid, e) (im_pairs s vals) -> exists i, assoc Nat.eqb ids pid = Some i /\ at_ a ids l e i) ->
    all_at a ids (xs ++ [x]) l.
  Proof. intros H K nm s vals pid e A B C. apply in_app_iff in A. destruct A as [A|[A|[]]]; [exact (H _ _ _ _ _ A B C) | exact (K _ _ _ _ _ A B C)]. Qed.
  Lemma of_kind_snoc k xs x : of_kind a k (xs ++ [x]) = of_kind a k xs ++ of_kind a k [x].
  Proof. unfold of_kind. apply flat_map_app. Qed.
  Lemma pubs_snoc xs x : pubs_of a (xs ++ [x]) = pubs_of a xs ++ pubs_of a [x].
  Proof. unfold pubs_of. apply flat_map_app. Qed.
  Lemma of_kind_other k x : match x with SIdentity _ => False | _ => True end -> of_kind a k [x] = [].
  Proof. destruct x; cbn; [reflexivity | reflexivity | contradiction]. Qed.

  Lemma identity_step xs o o' i d : inv a ids xs o -> nth_error (an_ids a) i = Some d -> export_identity a ids o d = Ok o' -> inv a ids (xs ++ [SIdentity i]) o'.
  Proof.
    intros [V1 V2 V3 V4 V5 V6] Hd H. unfold export_identity in H. apply bind_ok in H. destruct H as [[lv x1] [E1 H]]. apply bind_ok in H. destruct H as [[sl x2] [E2 H]].
    apply bind_ok in H. destruct H as [[rv x3] [E3 H]]. apply bind_ok in H. destruct H as [[sr x4] [E4 H]].
    destruct (extract_vec_ok _ _ _ _ _ _ _ E1) as [G1 [A1 _]]. destruct (extract_opt_ok _ _ _ _ _ _ _ E2) as [G2 [A2 _]]. destruct (extract_vec_ok _ _ _ _ _ _ _ E3) as [G3 [A3 _]]. destruct (extract_opt_ok _ _ _ _ _ _ _ E4) as [G4 [A4 _]].
    pose proof (grows_trans _ _ _ G3 G4) as G34. pose proof (grows_trans _ _ _ G2 G34) as G24. pose proof (grows_trans _ _ _ G1 G24) as G.
    pose proof (vec_grows _ _ _ _ G24 A1) as B1. pose proof (opt_grows _ _ _ _ G34 A2) as B2. pose proof (vec_grows _ _ _ _ G4 A3) as B3.
    pose proof (fall2_impl _ _ _ _ (fun d i => pol_grows _ _ d i G) V1) as W1. pose proof (fall2_impl _ _ _ _ (fun d i => arg_grows _ _ d i G) V2) as W2.
    pose proof (fall2_impl _ _ _ _ (fun d i => arg_grows _ _ d i G) V3) as W3. pose proof (fall2_impl _ _ _ _ (fun d i => conn_grows _ _ d i G) V4) as W4. pose proof (ims_grows _ _ _ G V6) as W6.
    assert (W6' : all_at a ids (xs ++ [SIdentity i]) (ex_exps x4)) by (apply all_snoc; [exact W6 | intros; discriminate]).
    assert (K : forall k, of_kind a k [SIdentity i] = if ikind_eqb (id_kind d) k then [d] else []) by (intros k; unfold of_kind; cbn [flat_map]; rewrite Hd, app_nil_r; reflexivity).
    assert (Hp : pair_of a ids (ex_exps x4) d (Some lv) (Some rv) sl sr).
    { exists lv, rv. split; [reflexivity|]. split; [reflexivity|]. split; [exact B1|]. split; [exact B3|]. split; [exact B2 | exact A4]. }
    destruct (id_kind d) eqn:Ek.
    - apply bind_ok in H. destruct H as [e [E H]]. injection H as <-. destruct sl as [e'|]; [|discriminate E]. injection E as ->.
      constructor; cbn [xp_ex xp_publics xp_pols xp_lookups xp_perms xp_conns]; rewrite ?of_kind_snoc, ?K, ?pubs_snoc; cbn [ikind_eqb pubs_of flat_map]; rewrite ?app_nil_r; try assumption.
      apply fall2_snoc; [exact W1|]. destruct (se_sel (id_left d)) as [e0|] eqn:Es; [|contradiction]. exists e0. split; [exact Es | exact B2].
    - injection H as <-. constructor; cbn [xp_ex xp_publics xp_pols xp_lookups xp_perms xp_conns]; rewrite ?of_kind_snoc, ?K, ?pubs_snoc; cbn [ikind_eqb pubs_of flat_map]; rewrite ?app_nil_r; try assumption. apply fall2_snoc; [exact W2 | exact Hp].
    - injection H as <-. constructor; cbn [xp_ex xp_publics xp_pols xp_lookups xp_perms xp_conns]; rewrite ?of_kind_snoc, ?K, ?pubs_snoc; cbn [ikind_eqb pubs_of flat_map]; rewrite ?app_nil_r; try assumption. apply fall2_snoc; [exact W3 | exact Hp].
    - injection H as <-. constructor; cbn [xp_ex xp_publics xp_pols xp_lookups xp_perms xp_conns]; rewrite ?of_kind_snoc, ?K, ?pubs_snoc; cbn [ikind_eqb pubs_of flat_map]; rewrite ?app_nil_r; try assumption. apply fall2_snoc; [exact W4|].
      exists lv, rv. split; [reflexivity|]. split; [reflexivity|]. split; [exact B1 | exact B3].
  Qed.
  Lemma export_step_ok xs o o' x : inv a ids xs o -> export_step a ids o x = Ok o' -> inv a ids (xs ++ [x]) o'.
  Proof.
    intros V H. destruct x as [nm|nm|i]; cbn [export_step] in H.
    - destruct (an_ims a nm) as [[s vals]|] eqn:Em.
      + destruct (im_kind s); [|discriminate H]. apply bind_ok in H. destruct H as [ex [E H]]. injection H as <-. destruct (extract_ims_ok _ _ _ _ _ E) as [G [_ A]]. destruct V as [V1 V2 V3 V4 V5 V6].
        constructor; cbn [with_ex xp_ex xp_publics xp_pols xp_lookups xp_perms xp_conns]; rewrite ?of_kind_snoc, ?pubs_snoc, ?(of_kind_other _ (SDefinition nm) Logic.I); cbn [pubs_of flat_map]; rewrite ?app_nil_r.
        * exact (fall2_impl _ _ _ _ (fun d i => pol_grows _ _ d i G) V1).
        * exact (fall2_impl _ _ _ _ (fun d i => arg_grows _ _ d i G) V2).
        * exact (fall2_impl _ _ _ _ (fun d i => arg_grows _ _ d i G) V3).
        * exact (fall2_impl _ _ _ _ (fun d i => conn_grows _ _ d i G) V4).
        * exact V5.
        * apply all_snoc; [exact (ims_grows _ _ _ G V6)|]. intros nm' s' vals' pid e F Em' Hin. injection F as <-. rewrite Em in Em'. injection Em' as <- <-. exact (A _ _ Hin).
      + injection H as <-. destruct V as [V1 V2 V3 V4 V5 V6]. constructor; rewrite ?of_kind_snoc, ?pubs_snoc, ?(of_kind_other _ (SDefinition nm) Logic.I); cbn [pubs_of flat_map]; rewrite ?app_nil_r; try assumption.
        apply all_snoc; [exact V6|]. intros nm' s' vals' pid e F Em' _. injection F as <-. congruence.
    - apply bind_ok in H. destruct H as [d [Ed H]]. destruct (an_pubs a nm) as [d'|] eqn:Ep; [|discriminate Ed]. injection Ed as ->. unfold export_public in H. apply bind_ok in H. destruct H as [[id t] [E1 H]].
      apply bind_ok in H. destruct H as [[dg j] [E2 H]]. apply bind_ok in H. destruct H as [i [E3 H]]. injection H as <-. destruct V as [V1 V2 V3 V4 V5 V6].
      constructor; cbn [xp_ex xp_publics xp_pols xp_lookups xp_perms xp_conns]; rewrite ?of_kind_snoc, ?(of_kind_other _ (SPublic nm) Logic.I), ?app_nil_r; try assumption; [|apply all_snoc; [exact V6 | intros; discriminate]].
      rewrite pubs_snoc. unfold pubs_of at 2. cbn [flat_map]. rewrite Ep, app_nil_r. apply fall2_snoc; [exact V5|]. exists id, t, i. split; [destruct (pd_poly d); [now injection E1 as -> | discriminate E1]|]. split; [reflexivity|].
      cbv zeta. unfold poly_ref in E2. apply bind_ok in E2. destruct E2 as [i' [E4 E2]]. injection E2 as _ <-. cbn [snd e_id unwrap] in E3. injection E3 as ->. destruct (is_im t); [destruct (assoc Nat.eqb ids _); [now injection E4 as -> | discriminate E4] | now injection E4 as ->].
    - apply bind_ok in H. destruct H as [d [Ed H]]. unfold vget in Ed. destruct (nth_error (an_ids a) i) as [d'|] eqn:En; [|discriminate Ed]. injection Ed as ->. exact (identity_step _ _ _ _ _ V En H).
  Qed.
  Lemma export_fold xs : forall ys o o', inv a ids ys o -> foldM (export_step a ids) xs o = Ok o' -> inv a ids (ys ++ xs) o'.
  Proof.
    induction xs as [|x xs IH]; intros ys o o' V H; cbn [foldM] in H; [injection H as <-; rewrite app_nil_r; exact V|].
    apply bind_ok in H. destruct H as [o1 [E H]]. change (x :: xs) with ([x] ++ xs). rewrite app_assoc. exact (IH _ _ _ (export_step_ok _ _ _ _ V E) H).
  Qed.
End Fold.
Lemma export_inv a o : export a = Ok o -> exists ids, intermediate_ids a = Ok ids /\ inv a ids (an_order a) o.
Proof.
  unfold export. intros H. apply bind_ok in H. destruct H as [ids [E H]]. exists ids. split; [exact E|]. apply (export_fold a ids _ [] xp_start o); [|exact H].
  constructor; cbn; try constructor. intros ? ? ? ? ? [].
Qed.

(* every number handed out belongs to an element of an intermediate column *)
Lemma ids_from a : forall xs n ids n' ids', foldM (count_step a) xs (n, ids) = Ok (n', ids') -> forall pid i, In (pid, i) ids' -> In (pid, i) ids \/
  exists nm s vals k, In (SDefinition nm) xs /\ an_ims a nm = Some (s, vals) /\ k < sym_count s /\ pid = sy_id s + k.
Proof.
  induction xs as [|x xs IH]; intros n ids n' ids' H pid i Hin; cbn [foldM] in H; [injection H as _ <-; now left|].
  apply bind_ok in H. destruct H as [[n1 ids1] [E H]]. destruct (IH _ _ _ _ H _ _ Hin) as [A|[nm [s [vals [k [A B]]]]]]; [|right; exists nm, s, vals, k; split; [now right | exact B]].
  destruct x as [nm|nm|j]; cbn [count_step] in E.
  - destruct (an_defs a nm) as [s|]; [destruct (im_kind s); [discriminate E | injection E as _ <-; now left]|]. destruct (an_ims a nm) as [[s vals]|] eqn:Em; [|discriminate E]. destruct (im_kind s); [|discriminate E].
    injection E as _ <-. apply in_app_iff in A. destruct A as [A|A]; [|now left]. rewrite <- in_rev in A. apply in_map_iff in A. destruct A as [k [F Hk]]. injection F as <- _. apply in_seq in Hk.
    right. exists nm, s, vals, k. split; [now left|]. split; [exact Em|]. split; [lia | reflexivity].
  - destruct (an_pubs a nm); [injection E as _ <-; now left | discriminate E].
  - apply bind_ok in E. destruct E as [d [_ E]]. injection E as _ <-. now left.
Qed.
(* every intermediate column has one expression for each element *)
Definition columns_full (a : analyzed) : Prop := forall nm s vals, In (SDefinition nm) (an_order a) -> an_ims a nm = Some (s, vals) -> List.length vals = sym_count s.
Lemma im_at a ids o pid i : columns_full a -> intermediate_ids a = Ok ids -> inv a ids (an_order a) o -> assoc Nat.eqb ids pid = Some i ->
  exists e, defines a pid e /\ at_ a ids (ex_exps (xp_ex o)) e i.
Proof.
  intros HF Hi V H. unfold intermediate_ids in Hi. apply bind_ok in Hi. destruct Hi as [[n ids'] [E Hi]]. injection Hi as <-. cbn [snd] in *.
  destruct (ids_from a _ _ _ _ _ E pid i (assoc_some _ _ _ H)) as [[]|[nm [s [vals [k [A [B [C D]]]]]]]].
  pose proof (HF _ _ _ A B) as L. destruct (nth_error vals k) as [e|] eqn:Ek; [|apply nth_error_None in Ek; lia].
  exists e. split; [exists nm, s, vals, k; auto|]. destruct (v_ims _ _ _ _ V nm s vals pid e A B) as [i' [F G]].
  { unfold im_pairs. clear -D Ek L C. subst pid. assert (nth_error (combine (map (fun k => sy_id s + k) (seq 0 (sym_count s))) vals) k = Some (sy_id s + k, e)).
    { clear L. assert (G : forall (l : list nat) (v : list aexpr) k x e, nth_error l k = Some x -> nth_error v k = Some e -> nth_error (combine l v) k = Some (x, e)).
      { induction l as [|y l IH]; intros v k0 x e0 A B; [destruct k0; discriminate A|]. destruct v as [|z v]; [destruct k0; discriminate B|]. destruct k0 as [|k0]; cbn in *; [now injection A as ->; injection B as -> | exact (IH _ _ _ _ A B)]. }
      apply G; [|exact Ek]. rewrite nth_error_map. rewrite (nth_error_nth' _ 0) by (rewrite seq_length; exact C). rewrite seq_nth by exact C. reflexivity. }
    exact (nth_error_In _ _ H). }
  assert (i' = i) by congruence. subst i'. exact G.
Qed.

(** * Meaning *)

Section Meaning.
  Variables (a : analyzed) (cm cn : nat -> nat -> F3G) (pubv : name -> F3G) (chal : nat -> F3G) (numv : Z -> F3G) (other : nat -> node -> F3G).
  (* the value of an expression of the analysed PIL in row r; cm and cn give column and row *)
  Inductive ev : nat -> aexpr -> F3G -> Prop :=
  | V_cm r i (nx : bool) : ev r (ARef (i, Committed) nx) (cm i (if nx then S r else r))
  | V_const r i (nx : bool) : ev r (ARef (i, Constant) nx) (cn i (if nx then S r else r))
  | V_im r i (nx : bool) e v : defines a i e -> ev (if nx then S r else r) e v -> ev r (ARef (i, Intermediate) nx) v
  | V_pub r (n : name) : ev r (APublic n) (pubv n)
  | V_chal r (i : nat) : ev r (AChallenge i) (chal i)
  | V_num r (z : Z) : ev r (ANumber z) (numv z)
  | V_add r x y u v : ev r x u -> ev r y v -> ev r (ABin BAdd x y) (e_add u v)
  | V_sub r x y u v : ev r x u -> ev r y v -> ev r (ABin BSub x y) (e_sub u v)
  | V_mul r x y u v : ev r x u -> ev r y v -> ev r (ABin BMul x y) (e_mul u v)
  | V_neg r x u : ev r x u -> ev r (AMinus x) (e_neg u).
  (* no operand is two rows ahead, and there is no power *)
  Inductive once : bool -> aexpr -> Prop :=
  | O_cm p (i : nat) nx : nx && p = false -> once p (ARef (i, Committed) nx)
  | O_const p (i : nat) nx : nx && p = false -> once p (ARef (i, Constant) nx)
  | O_im p i nx : nx && p = false -> (forall e, defines a i e -> once (nx || p) e) -> once p (ARef (i, Intermediate) nx)
  | O_pub p (n : name) : once p (APublic n)
  | O_chal p (i : nat) : once p (AChallenge i)
  | O_num p (z : Z) : once p (ANumber z)
  | O_bin p op x y : op <> BPow -> once p x -> once p y -> once p (ABin op x y)
  | O_neg p x : once p x -> once p (AMinus x).
  (* what the exported expression reads in row r; pubs gives the publics by number, other what no exported expression reads *)
  Variable pubs : nat -> F3G.
  Hypothesis pubs_named : forall n d, an_pubs a n = Some d -> pubs (pd_id d) = pubv n.
  Definition row_rho (r : nat) (n : node) : F3G :=
    let q := if n_prime n then S r else r in
    match n_ty n with
    | Ncm => cm (n_id n) q
    | Nconst => cn (n_id n) q
    | Npublic => pubs (n_id n)
    | Nchallenge => chal (n_id n)
    | Nnumber => match n_value n with Some z => numv z | None => other r n end
    | _ => other r n
    end.
  Variables (ids : idmap) (o : exported).
  Hypothesis Hfull : columns_full a.
  Hypothesis Hids : intermediate_ids a = Ok ids.
  Hypothesis Hinv : inv a ids (an_order a) o.
  Local Notation tbl := (ex_exps (xp_ex o)).

  Lemma json_inv e d j : to_json a ids e = Ok (d, j) ->
    match e with
    | ARef (i, t) nx => e_op j = ref_op t /\ e_next j = nx /\ (if is_im t then exists k, assoc Nat.eqb ids i = Some k /\ e_id j = Some k else e_id j = Some i)
    | APublic n => exists q, an_pubs a n = Some q /\ e_op j = OPublic /\ e_id j = Some (pd_id q)
    | AChallenge i => e_op j = OChallenge /\ e_id j = Some i
    | ANumber z => e_op j = ONumber /\ e_value j = Some z
    | ABin op x y => exists dx jx dy jy, to_json a ids x = Ok (dx, jx) /\ to_json a ids y = Ok (dy, jy) /\ e_values j = [jx; jy] /\
        e_op j = match op with BAdd => OAdd | BSub => OSub | BMul => OMul | BPow => OOther end
    | AMinus x => exists dx jx, to_json a ids x = Ok (dx, jx) /\ e_values j = [jx] /\ e_op j = ONeg
    end.
  Proof.
    intros H. destruct e as [[i t] nx|n|i|z|op x y|x]; cbn [to_json] in H.
    - unfold poly_ref in H. apply bind_ok in H. destruct H as [k [E H]]. injection H as _ <-. cbn [e_op e_next e_id]. split; [reflexivity|]. split; [reflexivity|]. destruct (is_im t); [destruct (assoc Nat.eqb ids i) as [k'|]; [injection E as ->; exists k; auto | discriminate E] | injection E as ->; reflexivity].
    - apply bind_ok in H. destruct H as [q [E H]]. injection H as _ <-. destruct (an_pubs a n) as [q'|]; [|discriminate E]. injection E as ->. exists q. auto.
    - injection H as _ <-. auto.
    - injection H as _ <-. auto.
    - apply bind_ok in H. destruct H as [[dx jx] [E1 H]]. apply bind_ok in H. destruct H as [[dy jy] [E2 H]]. exists dx, jx, dy, jy. split; [exact E1|]. split; [exact E2|].
      destruct op; [injection H as _ <-; auto | injection H as _ <-; auto | injection H as _ <-; auto |]. destruct (dx + dy =? 0); [injection H as _ <-; auto | discriminate H].
    - apply bind_ok in H. destruct H as [[dx jx] [E1 H]]. injection H as _ <-. exists dx, jx. auto.
  Qed.
  Lemma shift (p nx : bool) r : nx && p = false -> (if nx then S (if p then S r else r) else (if p then S r else r)) = if nx || p then S r else r.
  Proof. destruct p, nx; cbn; intros H; try reflexivity; discriminate H. Qed.
  (* what the exported expression denotes is the value of the expression *)
  Lemma den_ev r p j v : den tbl (row_rho r) p j v -> forall e d j0, to_json a ids e = Ok (d, j0) -> like j j0 -> ev (if p then S r else r) e v.
  Proof.
    induction 1 as [p j x y l u v Ho Hv A IHA B IHB|p j x y l u v Ho Hv A IHA B IHB|p j x y l u v Ho Hv A IHA B IHB|p j x y z l u v w Ho Hv A IHA B IHB C IHC|p j x l k u Ho Hv Hc A IHA|p j x l k u Ho Hv Hc A IHA
      |p j x l u Ho Hv A IHA|p j i j' v Ho Hi Hn Ht A IHA|p j i Ho Hi Hn|p j i Ho Hi Hn|p j i Ho Hi Hn|p j Ho|p j i Ho Hi|p j i Ho Hi|p j i Ho Hi|p j Ho|p j Ho|p j Ho];
      intros e d j0 Hj Hl; destruct (like_parts _ _ Hl) as [L1 [L2 [L3 [L4 [L5 L6]]]]]; pose proof (json_inv _ _ _ Hj) as J; rewrite L1 in Ho; try rewrite L5 in Hv; try rewrite L2 in Hi; try rewrite L3 in Hn.
    1-3: destruct e as [[i0 t0] nx0|n0|i0|z0|op0 x0 y0|x0]; [destruct J as [J _]; destruct t0; cbn in J; congruence | destruct J as [? [_ [J _]]]; congruence | destruct J; congruence | destruct J; congruence | | destruct J as [? [? [_ [_ J]]]]; congruence];
      destruct J as [dx [jx [dy [jy [J1 [J2 [J3 J4]]]]]]]; rewrite Hv in J3; injection J3 as -> -> ->; destruct op0; try congruence; constructor; [eapply IHA; [exact J1 | now left] | eapply IHB; [exact J2 | now left]].
    1-3: exfalso; destruct e as [[i0 t0] nx0|n0|i0|z0|op0 x0 y0|x0]; [destruct J as [J _]; destruct t0; cbn in J; congruence | destruct J as [? [_ [J _]]]; congruence | destruct J; congruence | destruct J; congruence |
      destruct J as [? [? [? [? [_ [_ [_ J]]]]]]]; destruct op0; congruence | destruct J as [? [? [_ [_ J]]]]; congruence].
    - destruct e as [[i0 t0] nx0|n0|i0|z0|op0 x0 y0|x0]; [destruct J as [J _]; destruct t0; cbn in J; congruence | destruct J as [? [_ [J _]]]; congruence | destruct J; congruence | destruct J; congruence |
        destruct J as [? [? [? [? [_ [_ [_ J]]]]]]]; destruct op0; congruence |]. destruct J as [dx [jx [J1 [J2 J3]]]]. rewrite Hv in J2. injection J2 as -> ->. constructor. eapply IHA; [exact J1 | now left].
    - destruct e as [[i0 t0] nx0|n0|i0|z0|op0 x0 y0|x0]; [|destruct J as [? [_ [J _]]]; congruence | destruct J; congruence | destruct J; congruence |
        destruct J as [? [? [? [? [_ [_ [_ J]]]]]]]; destruct op0; congruence | destruct J as [? [? [_ [_ J]]]]; congruence].
      destruct J as [J1 [J2 J3]]. destruct t0; cbn [ref_op] in J1; try congruence. cbn [is_im] in J3. destruct J3 as [k [J3 J4]]. assert (k = i) by congruence. subst k.
      destruct (im_at _ _ _ _ _ Hfull Hids Hinv J3) as [e' [D [d' [j1 [j2 [K1 [K2 K3]]]]]]]. assert (j2 = j') by congruence. subst j2. rewrite J2 in Hn. rewrite L3, J2 in IHA. pose proof (IHA _ _ _ K1 K3) as E.
      apply V_im with (e := e'); [exact D|]. rewrite (shift p nx0 r Hn). exact E.
    - destruct e as [[i0 t0] nx0|n0|i0|z0|op0 x0 y0|x0]; [|destruct J as [? [_ [J _]]]; congruence | destruct J; congruence | destruct J; congruence |
        destruct J as [? [? [? [? [_ [_ [_ J]]]]]]]; destruct op0; congruence | destruct J as [? [? [_ [_ J]]]]; congruence].
      destruct J as [J1 [J2 J3]]. destruct t0; cbn [ref_op] in J1; try congruence. cbn [is_im] in J3. assert (i0 = i) by congruence. subst i0. unfold row_rho. cbn [n_ty n_id n_prime N_new]. rewrite L3, J2. rewrite J2 in Hn. rewrite <- (shift p nx0 r Hn). constructor.
    - destruct e as [[i0 t0] nx0|n0|i0|z0|op0 x0 y0|x0]; [|destruct J as [? [_ [J _]]]; congruence | destruct J; congruence | destruct J; congruence |
        destruct J as [? [? [? [? [_ [_ [_ J]]]]]]]; destruct op0; congruence | destruct J as [? [? [_ [_ J]]]]; congruence].
      destruct J as [J1 [J2 J3]]. destruct t0; cbn [ref_op] in J1; try congruence. cbn [is_im] in J3. assert (i0 = i) by congruence. subst i0. unfold row_rho. cbn [n_ty n_id n_prime N_new]. rewrite L3, J2. rewrite J2 in Hn. rewrite <- (shift p nx0 r Hn). constructor.
    - exfalso; destruct e as [[i0 t0] nx0|n0|i0|z0|op0 x0 y0|x0]; [destruct J as [J _]; destruct t0; cbn in J; congruence | destruct J as [? [_ [J _]]]; congruence | destruct J; congruence | destruct J; congruence |
      destruct J as [? [? [? [? [_ [_ [_ J]]]]]]]; destruct op0; congruence | destruct J as [? [? [_ [_ J]]]]; congruence].
    - destruct e as [[i0 t0] nx0|n0|i0|z0|op0 x0 y0|x0]; [destruct J as [J _]; destruct t0; cbn in J; congruence | destruct J as [? [_ [J _]]]; congruence | destruct J; congruence | |
        destruct J as [? [? [? [? [_ [_ [_ J]]]]]]]; destruct op0; congruence | destruct J as [? [? [_ [_ J]]]]; congruence].
      destruct J as [_ J]. unfold row_rho. cbn [n_ty n_value N_new]. rewrite L4, J. constructor.
    - destruct e as [[i0 t0] nx0|n0|i0|z0|op0 x0 y0|x0]; [destruct J as [J _]; destruct t0; cbn in J; congruence | | destruct J; congruence | destruct J; congruence |
        destruct J as [? [? [? [? [_ [_ [_ J]]]]]]]; destruct op0; congruence | destruct J as [? [? [_ [_ J]]]]; congruence].
      destruct J as [q [J1 [_ J2]]]. unfold row_rho. cbn [n_ty n_id N_new]. assert (i = pd_id q) by congruence. subst i. rewrite (pubs_named _ _ J1). constructor.
    - destruct e as [[i0 t0] nx0|n0|i0|z0|op0 x0 y0|x0]; [destruct J as [J _]; destruct t0; cbn in J; congruence | destruct J as [? [_ [J _]]]; congruence | | destruct J; congruence |
        destruct J as [? [? [? [? [_ [_ [_ J]]]]]]]; destruct op0; congruence | destruct J as [? [? [_ [_ J]]]]; congruence].
      destruct J as [_ J]. unfold row_rho. cbn [n_ty n_id N_new]. assert (i = i0) by congruence. subst i. constructor.
    - exfalso; destruct e as [[i0 t0] nx0|n0|i0|z0|op0 x0 y0|x0]; [destruct J as [J _]; destruct t0; cbn in J; congruence | destruct J as [? [_ [J _]]]; congruence | destruct J; congruence | destruct J; congruence |
      destruct J as [? [? [? [? [_ [_ [_ J]]]]]]]; destruct op0; congruence | destruct J as [? [? [_ [_ J]]]]; congruence].
    - exfalso; destruct e as [[i0 t0] nx0|n0|i0|z0|op0 x0 y0|x0]; [destruct J as [J _]; destruct t0; cbn in J; congruence | destruct J as [? [_ [J _]]]; congruence | destruct J; congruence | destruct J; congruence |
      destruct J as [? [? [? [? [_ [_ [_ J]]]]]]]; destruct op0; congruence | destruct J as [? [? [_ [_ J]]]]; congruence].
    - exfalso; destruct e as [[i0 t0] nx0|n0|i0|z0|op0 x0 y0|x0]; [destruct J as [J _]; destruct t0; cbn in J; congruence | destruct J as [? [_ [J _]]]; congruence | destruct J; congruence | destruct J; congruence |
      destruct J as [? [? [? [? [_ [_ [_ J]]]]]]]; destruct op0; congruence | destruct J as [? [? [_ [_ J]]]]; congruence].
    - exfalso; destruct e as [[i0 t0] nx0|n0|i0|z0|op0 x0 y0|x0]; [destruct J as [J _]; destruct t0; cbn in J; congruence | destruct J as [? [_ [J _]]]; congruence | destruct J; congruence | destruct J; congruence |
      destruct J as [? [? [? [? [_ [_ [_ J]]]]]]]; destruct op0; congruence | destruct J as [? [? [_ [_ J]]]]; congruence].
  Qed.
  (* and the other way round, unless an operand is two rows ahead *)
  Hypothesis Hone : forall i e e', defines a i e -> defines a i e' -> e = e'.
  Lemma ev_den r' e v : ev r' e v -> forall r (p : bool) d j0 j, r' = (if p then S r else r) -> once p e -> to_json a ids e = Ok (d, j0) -> like j j0 -> den tbl (row_rho r) p j v.
  Proof.
    induction 1 as [r' i nx|r' i nx|r' i nx e v D A IHA|r' n|r' i|r' z|r' x y u v A IHA B IHB|r' x y u v A IHA B IHB|r' x y u v A IHA B IHB|r' x u A IHA]; intros r p d j0 j Er Ho Hj Hl; destruct (like_parts _ _ Hl) as [L1 [L2 [L3 [L4 [L5 L6]]]]];
      pose proof (json_inv _ _ _ Hj) as J; cbv beta iota in J.
    - inversion Ho as [p0 i0 nx0 Hn| | | | | | |]; subst. destruct J as [J1 [J2 J3]]. cbn in J1, J3. rewrite (shift p nx r Hn). replace (cm i (if nx || p then S r else r)) with (row_rho r (N_new Ncm i None (e_next j || p))).
      + apply D_cm; [congruence | congruence | rewrite L3, J2; exact Hn].
      + rewrite L3, J2. reflexivity.
    - inversion Ho as [|p0 i0 nx0 Hn| | | | | |]; subst. destruct J as [J1 [J2 J3]]. cbn in J1, J3. rewrite (shift p nx r Hn). replace (cn i (if nx || p then S r else r)) with (row_rho r (N_new Nconst i None (e_next j || p))).
      + apply D_const; [congruence | congruence | rewrite L3, J2; exact Hn].
      + rewrite L3, J2. reflexivity.
    - inversion Ho as [| |p0 i0 nx0 Hn Hs| | | | |]; subst. destruct J as [J1 [J2 [k [J3 J4]]]]. cbn in J1. destruct (im_at _ _ _ _ _ Hfull Hids Hinv J3) as [e' [D' [d' [j1 [j2 [K1 [K2 K3]]]]]]].
      pose proof (Hone _ _ _ D D'). subst e'. apply (D_exp _ _ p j k j2 v); [congruence | congruence | rewrite L3, J2; exact Hn | exact K2|]. rewrite L3, J2.
      apply (IHA r (nx || p) d' j1 j2); [exact (shift p nx r Hn) | exact (Hs e D) | exact K1 | exact K3].
    - destruct J as [q [J1 [J2 J3]]]. rewrite <- (pubs_named _ _ J1). change (pubs (pd_id q)) with (row_rho r (N_new Npublic (pd_id q) None false)). apply D_public; congruence.
    - destruct J as [J1 J2]. change (chal i) with (row_rho r (N_new Nchallenge i None false)). apply D_challenge; congruence.
    - destruct J as [J1 J2]. replace (numv z) with (row_rho r (N_new Nnumber 0 (e_value j) false)) by (rewrite L4, J2; reflexivity). apply D_number. congruence.
    - inversion Ho as [| | | | | |p0 op0 x0 y0 Hp Ox Oy|]; subst. destruct J as [dx [jx [dy [jy [J1 [J2 [J3 J4]]]]]]]. eapply D_add; [congruence | rewrite L5; exact J3 | |]; [eapply IHA; [reflexivity | exact Ox | exact J1 | now left] | eapply IHB; [reflexivity | exact Oy | exact J2 | now left]].
    - inversion Ho as [| | | | | |p0 op0 x0 y0 Hp Ox Oy|]; subst. destruct J as [dx [jx [dy [jy [J1 [J2 [J3 J4]]]]]]]. eapply D_sub; [congruence | rewrite L5; exact J3 | |]; [eapply IHA; [reflexivity | exact Ox | exact J1 | now left] | eapply IHB; [reflexivity | exact Oy | exact J2 | now left]].
    - inversion Ho as [| | | | | |p0 op0 x0 y0 Hp Ox Oy|]; subst. destruct J as [dx [jx [dy [jy [J1 [J2 [J3 J4]]]]]]]. eapply D_mul; [congruence | rewrite L5; exact J3 | |]; [eapply IHA; [reflexivity | exact Ox | exact J1 | now left] | eapply IHB; [reflexivity | exact Oy | exact J2 | now left]].
    - inversion Ho as [| | | | | | |p0 x0 Ox]; subst. destruct J as [dx [jx [J1 [J2 J3]]]]. eapply D_neg; [congruence | rewrite L5; exact J2|]. eapply IHA; [reflexivity | exact Ox | exact J1 | now left].
  Qed.
  (* number i of the exported expressions means the expression e *)
  Definition means (e : aexpr) (i : nat) : Prop :=
    forall r v, (den tbl (row_rho r) false (E_exp i false) v -> ev r e v) /\ (once false e -> ev r e v -> den tbl (row_rho r) false (E_exp i false) v).
  Lemma at_means e i : at_ a ids tbl e i -> means e i.
  Proof.
    intros [d [j0 [j [A [B C]]]]] r v. split.
    - intros H. inversion H as [| | | | | | |p0 e0 i0 e' v0 Ho Hi Hn Ht D| | | | | | | | | |]; subst; try discriminate. cbn in Hi, D. injection Hi as <-. assert (e' = j) by congruence. subst e'. exact (den_ev r false j v D e d j0 A C).
    - intros Ho H. eapply D_exp; [reflexivity | reflexivity | reflexivity | exact B|]. exact (ev_den _ _ _ H r false d j0 j eq_refl Ho A C).
  Qed.
  Definition means_opt (e : option aexpr) (i : option nat) : Prop := match e, i with Some e, Some i => means e i | None, None => True | _, _ => False end.
  Definition means_all (l : list aexpr) (v : option (list nat)) : Prop := exists w, v = Some w /\ Forall2 means l w.
  Definition means_arg (d : identity) (x : ArgModel.lident) : Prop :=
    means_all (se_exps (id_left d)) (ArgModel.l_f x) /\ means_all (se_exps (id_right d)) (ArgModel.l_t x) /\ means_opt (se_sel (id_left d)) (ArgModel.l_selF x) /\ means_opt (se_sel (id_right d)) (ArgModel.l_selT x).
  Lemma arg_means d x : becomes_arg a ids tbl d x -> means_arg d x.
  Proof.
    intros [fv [tv [A [B [C [D [E F]]]]]]]. split; [exists fv; split; [exact A | exact (fall2_impl _ _ _ _ at_means C)]|]. split; [exists tv; split; [exact B | exact (fall2_impl _ _ _ _ at_means D)]|].
    unfold means_opt. split; [destruct (se_sel (id_left d)), (ArgModel.l_selF x) | destruct (se_sel (id_right d)), (ArgModel.l_selT x)]; auto using at_means.
  Qed.
  Theorem all_means :
    Forall2 (fun d i => exists e, se_sel (id_left d) = Some e /\ means e i) (of_kind a KPolynomial (an_order a)) (xp_pols o) /\
    Forall2 means_arg (of_kind a KPlookup (an_order a)) (xp_lookups o) /\ Forall2 means_arg (of_kind a KPermutation (an_order a)) (xp_perms o) /\
    Forall2 (fun d x => means_all (se_exps (id_left d)) (ArgModel.ci_pols x) /\ means_all (se_exps (id_right d)) (ArgModel.ci_conns x)) (of_kind a KConnect (an_order a)) (xp_conns o).
  Proof.
    destruct Hinv as [V1 V2 V3 V4 V5 V6]. split; [|split; [exact (fall2_impl _ _ _ _ arg_means V2)|]; split; [exact (fall2_impl _ _ _ _ arg_means V3)|]].
    - refine (fall2_impl _ _ _ _ _ V1). intros d i [e [A B]]. exists e. split; [exact A | exact (at_means _ _ B)].
    - refine (fall2_impl _ _ _ _ _ V4). intros d x [fv [tv [A [B [C D]]]]]. split; [exists fv; split; [exact A | exact (fall2_impl _ _ _ _ at_means C)] | exists tv; split; [exact B | exact (fall2_impl _ _ _ _ at_means D)]].
  Qed.
End Meaning.
