(* Proofs about VerifierModel.v. *)
From Verif Require Import Base GlModel FrField F3gModel Cubic F3gProof ListAux PolyModel ProverProof CodegenModel CodegenProof InterpModel InterpProof VerifierModel.
Open Scope nat_scope.
Open Scope res_scope.

(* ---------- shape of generated code ---------- *)
(* every reference has the plain form built by Node::new *)
Definition canon (r : node) : Prop := exists ty id v p, r = N_new ty id v p /\ (ty <> Nnumber -> v = None) /\ (ty = Neval -> p = false) /\ ty <> NZ.
Definition ok_node (n : nat) (r : node) : Prop := canon r /\ (n_ty r = Ntmp -> n_id r < n /\ n_prime r = false).
Lemma canon_num k : canon (N_new Nnumber 0 k false).
Proof. exists Nnumber, 0, k, false. split; [reflexivity|]. split; [congruence|]. split; discriminate. Qed.
Lemma canon_none ty id p : (ty = Neval -> p = false) -> ty <> NZ -> canon (N_new ty id None p).
Proof. intros H Hz. exists ty, id, None, p. auto. Qed.
Definition ok_t (n : nat) (c : instr) : Prop := Forall (ok_node n) (i_src c) /\ n_ty (i_dest c) = Ntmp /\ ok_node n (i_dest c).
Definition ok_instr (n : nat) (calc : list (bool * nat)) (c : instr) : Prop :=
  Forall (ok_node n) (i_src c) /\
  (n_ty (i_dest c) = Ntmp /\ ok_node n (i_dest c) \/ exists i p, key (i_dest c) = (Nexp, i, p) /\ ~ In (p, i) calc).
Lemma ok_node_le n m r : n <= m -> ok_node n r -> ok_node m r.
Proof. intros H [Hc Ho]. split; [exact Hc|]. intro E. destruct (Ho E). split; [lia | assumption]. Qed.
Lemma ok_t_le n m c : n <= m -> ok_t n c -> ok_t m c.
Proof. intros H [A [B C]]. split; [eapply Forall_impl; [|exact A]; intro; apply ok_node_le, H|]. split; [exact B | eapply ok_node_le; eassumption]. Qed.
Lemma ok_instr_le n m calc calc' c : n <= m -> incl calc' calc -> ok_instr n calc c -> ok_instr m calc' c.
Proof.
  intros H Hi [A B]. split; [eapply Forall_impl; [|exact A]; intro; apply ok_node_le, H|].
  destruct B as [[B C]|[i [p [B C]]]]; [left; split; [exact B | eapply ok_node_le; eassumption] | right; exists i, p; split; [exact B | auto]].
Qed.

Definition shape (c : ccontext) (r : node) (c' : ccontext) : Prop :=
  cc_tmp c <= cc_tmp c' /\ ok_node (cc_tmp c') r /\ exists new, cc_code c' = cc_code c ++ new /\ Forall (ok_t (cc_tmp c')) new /\
    (n_ty r = Ntmp -> exists body op src, new = body ++ [mkI op r src] /\
       Forall (ok_t (cc_tmp c' - 1)) body /\ Forall (ok_node (cc_tmp c' - 1)) src).
Definition shape_l (c : ccontext) (rs : list node) (c' : ccontext) : Prop :=
  cc_tmp c <= cc_tmp c' /\ Forall (ok_node (cc_tmp c')) rs /\ exists new, cc_code c' = cc_code c ++ new /\ Forall (ok_t (cc_tmp c')) new.

Lemma emit_shape c rs c1 op src : shape_l c rs c1 -> Forall (ok_node (cc_tmp c1)) src ->
  shape c (fst (emit c1 op src)) (snd (emit c1 op src)).
Proof.
  intros [H1 [H2 [new [H3 H4]]]] Hs. unfold emit. cbn [fst snd]. unfold shape. cbn [cc_tmp cc_code].
  assert (Hn : ok_node (cc_tmp c1 + 1) (N_new Ntmp (cc_tmp c1) None false)) by (split; [apply canon_none; discriminate | intros _; cbn; split; [lia | reflexivity]]).
  split; [lia|]. split; [exact Hn|].
  exists (new ++ [mkI op (N_new Ntmp (cc_tmp c1) None false) src]). split; [rewrite H3; now rewrite <- app_assoc|].
  split.
  - apply Forall_app. split; [eapply Forall_impl; [|exact H4]; intro; apply ok_t_le; lia|].
    constructor; [|constructor]. split; [eapply Forall_impl; [|exact Hs]; intro; apply ok_node_le; lia|]. split; [reflexivity | exact Hn].
  - intros _. exists new, op, src. split; [reflexivity|]. replace (cc_tmp c1 + 1 - 1) with (cc_tmp c1) by lia. split; assumption.
Qed.
Lemma leaf_shape c rs c1 n : shape_l c rs c1 -> n_ty n <> Ntmp -> canon n -> shape c n c1.
Proof.
  intros [H1 [H2 [new [H3 H4]]]] Hn Hc. split; [exact H1|]. split; [split; [exact Hc | intro E; contradiction]|].
  exists new. split; [exact H3|]. split; [exact H4|]. intro E. contradiction.
Qed.
Lemma single_shape p e c rs c1 r c' : shape_l c rs c1 -> eval_single_op p c1 e rs = Ok (r, c') -> shape c r c'.
Proof.
  intros HL H. pose proof HL as [_ [Hrs _]].
  assert (Hemit : forall op src, Ok (emit c1 op src) = Ok (r, c') -> Forall (ok_node (cc_tmp c1)) src -> shape c r c').
  { intros op src He Hs. pose proof (emit_shape c rs c1 op src HL Hs) as Hk.
    assert (Hr : emit c1 op src = (r, c')) by congruence. rewrite Hr in Hk. exact Hk. }
  assert (Hnum : forall k, ok_node (cc_tmp c1) (N_new Nnumber 0 (Some k) false)) by (intros k; split; [apply canon_num | intro E; discriminate E]).
  assert (Hsh : forall ty, ty <> Ntmp /\ ty <> Neval /\ ty <> NZ -> shifted_ref c1 e p ty = Ok (r, c') -> shape c r c').
  { intros ty [Ht [Ht' Hz]] Hx. unfold shifted_ref in Hx. destruct (e_next e && p); [discriminate Hx|].
    destruct (e_id e) as [i|]; [|discriminate Hx]. cbn [unwrap bind] in Hx. injection Hx as <- <-. eapply leaf_shape; [exact HL | exact Ht | apply canon_none; [intro C; contradiction | exact Hz]]. }
  assert (Hpl : forall ty, ty <> Ntmp /\ ty <> NZ -> plain_ref c1 e ty = Ok (r, c') -> shape c r c').
  { intros ty [Ht Hz] Hx. unfold plain_ref in Hx.
    destruct (e_id e) as [i|]; [|discriminate Hx]. cbn [unwrap bind] in Hx. injection Hx as <- <-. eapply leaf_shape; [exact HL | exact Ht | apply canon_none; [reflexivity | exact Hz]]. }
  unfold eval_single_op in H.
  destruct (e_op e); try discriminate H; try (apply (Hemit _ _ H); exact Hrs);
    try (eapply Hsh; [|exact H]; repeat split; discriminate); try (eapply Hpl; [|exact H]; split; discriminate);
    try (injection H as <- <-; eapply leaf_shape; [exact HL | discriminate | first [apply canon_num | apply canon_none; [reflexivity | discriminate]]]).
  - destruct rs as [|a rr]; [discriminate H|]. cbn [hd_error unwrap bind] in H. destruct (e_const e) as [k|]; [|discriminate H].
    cbn [unwrap bind] in H. apply (Hemit _ _ H). inversion Hrs; subst. constructor; [assumption|]. constructor; [apply Hnum | constructor].
  - destruct rs as [|a rr]; [discriminate H|]. cbn [hd_error unwrap bind] in H. destruct (e_const e) as [k|]; [|discriminate H].
    cbn [unwrap bind] in H. apply (Hemit _ _ H). inversion Hrs; subst. constructor; [assumption|]. constructor; [apply Hnum | constructor].
  - destruct rs as [|a rr]; [discriminate H|]. cbn [hd_error unwrap bind] in H.
    apply (Hemit _ _ H). inversion Hrs; subst. constructor; [apply Hnum|]. constructor; [assumption | constructor].
Qed.
Lemma shape_cons c r c1 rs c2 : shape c r c1 -> shape_l c1 rs c2 -> shape_l c (r :: rs) c2.
Proof.
  intros [A1 [A2 [n1 [A3 [A4 _]]]]] [B1 [B2 [n2 [B3 B4]]]]. split; [lia|].
  split; [constructor; [eapply ok_node_le; eassumption | exact B2]|].
  exists (n1 ++ n2). split; [rewrite B3, A3; now rewrite app_assoc|]. apply Forall_app. split; [|exact B4].
  eapply Forall_impl; [|exact A4]. intro; apply ok_t_le, B1.
Qed.
Lemma post_shape p e : forall c r c', post _ _ (eval_single_op p) e c = Ok (r, c') -> shape c r c'.
Proof.
  induction e as [op id next value values k kp IH] using expr_ind'. intros c r c' H.
  set (e := mkE op id next value values k kp) in *. change values with (e_values e) in IH.
  rewrite post_eq in H.
  destruct (posts _ _ (eval_single_op p) (e_values e) c) as [[rs c1]| | |] eqn:Ep; try discriminate H. cbn [bind fst snd] in H.
  apply (single_shape p e c rs c1 r c'); [|exact H].
  clear H. clearbody e. revert c rs c1 Ep.
  induction IH as [|x l Hx _ IHl]; intros c rs c1 Ep; cbn [posts] in Ep.
  - injection Ep as <- <-. split; [lia|]. split; [constructor|]. exists []. split; [now rewrite app_nil_r | constructor].
  - destruct (post _ _ (eval_single_op p) x c) as [[r1 c2]| | |] eqn:E1; try discriminate Ep. cbn [bind fst snd] in Ep.
    destruct (posts _ _ (eval_single_op p) l c2) as [[rs' c3]| | |] eqn:E2; try discriminate Ep. cbn [bind fst snd] in Ep.
    injection Ep as <- <-. eapply shape_cons; [apply Hx; eassumption | apply IHl; assumption].
Qed.

Definition grows (c c' : context) : Prop :=
  x_tmp c <= x_tmp c' /\ incl (x_calc c) (x_calc c') /\
  exists ext, linear_code c' = linear_code c ++ ext /\ Forall (ok_instr (x_tmp c') (x_calc c)) ext.
Lemma grows_refl c : grows c c.
Proof. split; [lia|]. split; [apply incl_refl|]. exists []. split; [now rewrite app_nil_r | constructor]. Qed.
Lemma grows_trans c c1 c2 : grows c c1 -> grows c1 c2 -> grows c c2.
Proof.
  intros [A1 [A2 [e1 [A3 A4]]]] [B1 [B2 [e2 [B3 B4]]]]. split; [lia|]. split; [eapply incl_tran; eassumption|].
  exists (e1 ++ e2). split; [rewrite B3, A3; now rewrite app_assoc|]. apply Forall_app. split.
  - eapply Forall_impl; [|exact A4]. intro. apply ok_instr_le; [exact B1 | apply incl_refl].
  - eapply Forall_impl; [|exact B4]. intro. apply ok_instr_le; [lia | exact A2].
Qed.

(* a property of contexts kept by the generator is kept by the dependencies *)
Lemma deps_rel (R : context -> context -> Prop) gen p : (forall c, R c c) -> (forall a b c, R a b -> R b c -> R a c) ->
  (forall c i pr c', gen c i pr = Ok c' -> R c c') -> forall e c c', calculate_deps gen p e c = Ok c' -> R c c'.
Proof.
  intros Hr Ht Hgen. induction e as [op id next value values k kp IH] using expr_ind'. intros c c' H.
  cbn [calculate_deps] in H.
  destruct (match op with OExp => do i <- unwrap id; (if p && next then Err else gen c i (p || next)) | _ => Ok c end) as [c1| | |] eqn:E1; try discriminate H.
  cbn [bind] in H.
  assert (H1 : R c c1).
  { destruct op; try (injection E1 as <-; apply Hr).
    destruct id as [i|]; [|discriminate E1]. cbn [unwrap bind] in E1. destruct (p && next); [discriminate E1|]. eapply Hgen, E1. }
  apply (Ht _ _ _ H1). clear E1 H1. revert c1 H. induction IH as [|x l Hx _ IHl]; intros c1 H.
  - injection H as <-. apply Hr.
  - destruct (calculate_deps gen p x c1) as [c2| | |] eqn:E2; try discriminate H. cbn [bind] in H.
    apply (Ht _ _ _ (Hx _ _ E2)). apply IHl, H.
Qed.

Lemma eval_exp_post p e c r c' : eval_exp c e p = Ok (r, c') -> post _ _ (eval_single_op p) e c = Ok (r, c').
Proof. unfold eval_exp. destruct (is_nop e); [discriminate|]. now rewrite traversal_post. Qed.

Lemma gen_grows fuel tbl : forall m c i p c', pil_code_gen fuel tbl None m c i p = Ok c' ->
  grows c c' /\ (~ In (p, i) (x_calc c) -> exists body op src, linear_code c' = body ++ [mkI op (N_new Nexp i None p) src]).
Proof.
  induction fuel as [|fuel IH]; intros m c i p c' H; [discriminate H|]. cbn [pil_code_gen] in H.
  destruct (key_in (p, i) (x_calc c)) eqn:Ek.
  { injection H as <-. split; [apply grows_refl|]. apply key_in_spec in Ek. contradiction. }
  destruct (vget tbl i) as [e| | |]; try discriminate H. cbn [bind] in H.
  destruct (calculate_deps _ p e c) as [c1| | |] eqn:Ed; try discriminate H. cbn [bind] in H.
  assert (Hd : grows c c1).
  { refine (deps_rel grows _ p grows_refl grows_trans _ e c c1 Ed). intros c0 i0 p0 c0' H0. exact (proj1 (IH _ _ _ _ _ H0)). }
  destruct (if m then find_muladd e else Ok e) as [e'| | |]; try discriminate H. cbn [bind] in H.
  destruct (eval_exp (mkCC (x_tmp c1) []) e' p) as [[r cc]| | |] eqn:Ee; try discriminate H. cbn [bind] in H.
  apply eval_exp_post, post_shape in Ee. destruct Ee as [S1 [S2 [new [S3 [S4 S5]]]]]. cbn [cc_tmp cc_code app] in *.
  assert (Hlin : forall t l calc, linear_code (mkCtx t (x_code c1 ++ [mkC i p l]) calc) = linear_code c1 ++ l).
  { intros. unfold linear_code. cbn [x_code]. rewrite map_app, concat_app. cbn. now rewrite app_nil_r. }
  assert (Hk : ~ In (p, i) (x_calc c1) \/ In (p, i) (x_calc c1)).
  { destruct (key_in (p, i) (x_calc c1)) eqn:E; [right; now apply key_in_spec | left; intro C; apply key_in_spec in C; congruence]. }
  assert (Hk0 : ~ In (p, i) (x_calc c)) by (intro C; apply key_in_spec in C; congruence).
  assert (Hg : forall t body op src, x_tmp c1 <= Nat.max (x_tmp c1) t -> Forall (ok_t (Nat.max (x_tmp c1) t)) body ->
      Forall (ok_node (Nat.max (x_tmp c1) t)) src ->
      grows c (mkCtx (Nat.max (x_tmp c1) t) (x_code c1 ++ [mkC i p (body ++ [mkI op (N_new Nexp i None p) src])]) ((p, i) :: x_calc c1))).
  { intros t body op src Ht Hb Hs. destruct Hd as [D1 [D2 [ext [D3 D4]]]]. split; [cbn [x_tmp]; lia|].
    split; [cbn [x_calc]; apply incl_tl, D2|].
    exists (ext ++ body ++ [mkI op (N_new Nexp i None p) src]). rewrite Hlin, D3. split; [now rewrite <- app_assoc|]. cbn [x_tmp].
    apply Forall_app. split; [eapply Forall_impl; [|exact D4]; intro; apply ok_instr_le; [exact Ht | apply incl_refl]|].
    apply Forall_app. split.
    - eapply Forall_impl; [|exact Hb]. intros a [A [B C]]. split; [exact A | left; split; assumption].
    - constructor; [|constructor]. split; [exact Hs|]. right. exists i, p. split; [reflexivity | exact Hk0]. }
  destruct (match n_ty r with Ntmp => _ | _ => _ end) as [[l t]| | |] eqn:El; try discriminate H. cbn [bind] in H. injection H as <-.
  assert (Hcopy : n_ty r <> Ntmp -> Ok (cc_code cc ++ [mkI CCopy (N_new Nexp i None p) [r]], cc_tmp cc) = Ok (l, t)).
  { intro Hn. destruct (n_ty r); try exact El. now destruct Hn. }
  destruct (match n_ty r with Ntmp => true | _ => false end) eqn:Et.
  - assert (Et' : n_ty r = Ntmp) by (destruct (n_ty r); try discriminate Et; reflexivity). clear Hcopy.
    rewrite Et' in El. destruct (S5 Et') as [body [op [src [S6 [S7 S8]]]]].
    unfold set_last_dest in El. rewrite S3, S6, rev_app_distr in El. cbn [rev app i_op i_src bind] in El.
    assert (El1 : rev (rev body) ++ [mkI op (N_new Nexp i None p) src] = l) by congruence.
    assert (El2 : cc_tmp cc - 1 = t) by congruence. rewrite rev_involutive in El1. subst l t.
    split.
    + apply Hg; [lia | |]; (eapply Forall_impl; [|eassumption]); intro; [apply ok_t_le | apply ok_node_le]; lia.
    + intros _. rewrite Hlin. exists (linear_code c1 ++ body), op, src. now rewrite app_assoc.
  - assert (Et' : n_ty r <> Ntmp) by (intro C; rewrite C in Et; discriminate Et).
    specialize (Hcopy Et'). assert (El1 : cc_code cc ++ [mkI CCopy (N_new Nexp i None p) [r]] = l) by congruence.
    assert (El2 : cc_tmp cc = t) by congruence. subst l t. rewrite S3.
    split.
    + apply Hg; [lia | |].
      * eapply Forall_impl; [|exact S4]. intro; apply ok_t_le; lia.
      * constructor; [|constructor]. split; [apply S2 | intro C; contradiction].
    + intros _. rewrite Hlin. exists (linear_code c1 ++ new), CCopy, [r]. now rewrite app_assoc.
Qed.

(* ---------- a table in which the intermediate expressions are columns ---------- *)
Definition with_im (im : list (nat * nat)) (tbl : list expr) : list expr :=
  map (fun ie => match assoc Nat.eqb im (fst ie) with Some c => E_cm c false | None => snd ie end) (combine (seq 0 (length tbl)) tbl).
Lemma with_im_nth im tbl i : nth_error (with_im im tbl) i =
  match nth_error tbl i with
  | None => None
  | Some e => Some (match assoc Nat.eqb im i with Some c => E_cm c false | None => e end)
  end.
Proof.
  unfold with_im. rewrite nth_error_map.
  assert (H : forall (l : list expr) k n, nth_error (combine (seq k (length l)) l) n = match nth_error l n with Some e => Some (k + n, e) | None => None end).
  { induction l as [|a l IH]; intros k n; cbn [length seq combine]; [now destruct n|].
    destruct n as [|n]; cbn [nth_error]; [now rewrite Nat.add_0_r|]. rewrite IH. now rewrite Nat.add_succ_comm. }
  rewrite H. destruct (nth_error tbl i); reflexivity.
Qed.
Lemma with_im_wf im tbl : Forall wf_e tbl -> Forall wf_e (with_im im tbl).
Proof.
  intro H. apply Forall_forall. intros e He. apply In_nth_error in He. destruct He as [n Hn]. rewrite with_im_nth in Hn.
  destruct (nth_error tbl n) as [e'|] eqn:E; [|discriminate Hn]. injection Hn as <-.
  destruct (assoc Nat.eqb im n); [|rewrite Forall_forall in H; apply H; eapply nth_error_In, E].
  repeat constructor.
Qed.

Lemma assoc_in_keys im i c p : assoc Nat.eqb im i = Some c -> In (p, i) (im_keys im).
Proof.
  induction im as [|[a v] im IH]; cbn [assoc]; [discriminate|]. destruct (Nat.eqb_spec a i) as [->|]; intro H; cbn [im_keys flat_map fst].
  - apply in_or_app. left. destruct p; cbn; auto.
  - apply in_or_app. right. apply IH, H.
Qed.
Lemma keys_assoc im i p : In (p, i) (im_keys im) -> exists c, assoc Nat.eqb im i = Some c.
Proof.
  induction im as [|[a v] im IH]; cbn [im_keys flat_map fst]; [intros []|]. intro H. apply in_app_or in H. cbn [assoc].
  destruct (Nat.eqb_spec a i); [eauto|]. destruct H as [[H|[H|[]]]|H]; [congruence | congruence | apply IH, H].
Qed.

Lemma gen_subst im tbl fuel : forall m c i p c', incl (im_keys im) (x_calc c) ->
  pil_code_gen fuel tbl None m c i p = Ok c' -> pil_code_gen fuel (with_im im tbl) None m c i p = Ok c'.
Proof.
  induction fuel as [|fuel IH]; intros m c i p c' Hi H; [discriminate H|]. cbn [pil_code_gen] in *.
  destruct (key_in (p, i) (x_calc c)) eqn:Ek; [exact H|].
  destruct (vget tbl i) as [e| | |] eqn:Ev; try discriminate H. cbn [bind] in H.
  assert (Ev' : vget (with_im im tbl) i = Ok e).
  { apply vget_some. rewrite with_im_nth. apply vget_inv in Ev. rewrite Ev. destruct (assoc Nat.eqb im i) as [q|] eqn:Ea; [|reflexivity].
    assert (C : key_in (p, i) (x_calc c) = true) by (apply key_in_spec, Hi; eapply assoc_in_keys, Ea). congruence. }
  rewrite Ev'. cbn [bind].
  destruct (calculate_deps (pil_code_gen fuel tbl None false) p e c) as [c1| | |] eqn:Ed; try discriminate H.
  assert (Hd : calculate_deps (pil_code_gen fuel (with_im im tbl) None false) p e c = Ok c1).
  { clear -IH Hi Ed. revert c c1 Hi Ed. induction e as [op id next value values k kp IHv] using expr_ind'. intros c c' Hi H.
    cbn [calculate_deps] in *.
    destruct (match op with OExp => do i <- unwrap id; (if p && next then Err else pil_code_gen fuel tbl None false c i (p || next)) | _ => Ok c end) as [c1| | |] eqn:E1; try discriminate H.
    cbn [bind] in H.
    assert (E1' : match op with OExp => do i <- unwrap id; (if p && next then Err else pil_code_gen fuel (with_im im tbl) None false c i (p || next)) | _ => Ok c end = Ok c1
                  /\ incl (im_keys im) (x_calc c1)).
    { destruct op; try (injection E1 as <-; split; [reflexivity | exact Hi]).
      destruct id as [i|]; [|discriminate E1]. cbn [unwrap bind] in *. destruct (p && next); [discriminate E1|].
      split; [apply IH; assumption|]. destruct (gen_grows _ _ _ _ _ _ _ E1) as [[_ [G _]] _]. eapply incl_tran; eassumption. }
    destruct E1' as [E1' Hi1]. rewrite E1'. cbn [bind]. clear E1 E1'. revert c1 Hi1 H.
    induction IHv as [|x l Hx _ IHl]; intros c1 Hi1 H; [exact H|].
    destruct (calculate_deps (pil_code_gen fuel tbl None false) p x c1) as [c2| | |] eqn:E2; try discriminate H. cbn [bind] in H.
    rewrite (Hx _ _ Hi1 E2). cbn [bind]. apply IHl; [|exact H].
    assert (G : grows c1 c2).
    { refine (deps_rel grows _ p grows_refl grows_trans _ x c1 c2 E2). intros c0 i0 p0 c0' H0. exact (proj1 (gen_grows _ _ _ _ _ _ _ H0)). }
    destruct G as [_ [G _]]. eapply incl_tran; eassumption. }
  rewrite Hd. exact H.
Qed.

(* ---------- the rewritten code runs in step ---------- *)
Definition ev_node (k : evkey) : node := N_new (if fst (fst k) then Ncm else Nconst) (snd k) None (snd (fst k)).
Lemma evkey_eqb_spec a b : reflect (a = b) (evkey_eqb a b).
Proof.
  destruct a as [[t p] i], b as [[t' p'] i']. unfold evkey_eqb. cbn [fst snd].
  destruct (Bool.eqb_spec t t') as [->|]; cbn [andb]; [|constructor; congruence].
  destruct (Bool.eqb_spec p p') as [->|]; cbn [andb]; [|constructor; congruence].
  destruct (Nat.eqb_spec i i') as [->|]; constructor; congruence.
Qed.
Lemma pkey_eqb_spec a b : reflect (a = b) (pkey_eqb a b).
Proof.
  destruct a as [p i], b as [p' i']. unfold pkey_eqb. cbn [fst snd].
  destruct (Bool.eqb_spec p p') as [->|]; cbn [andb]; [|constructor; congruence].
  destruct (Nat.eqb_spec i i') as [->|]; constructor; congruence.
Qed.

Definition ev_inv (e : evst) : Prop := forall k i, ev_get e k = Some i -> nth_error (ev_map e) i = Some k.
Definition ev_le (e e' : evst) : Prop := exists l, ev_map e' = ev_map e ++ l.
Lemma ev_le_refl e : ev_le e e.
Proof. exists []. now rewrite app_nil_r. Qed.
Lemma ev_le_trans a b c : ev_le a b -> ev_le b c -> ev_le a c.
Proof. intros [l H] [l' H']. exists (l ++ l'). now rewrite H', H, app_assoc. Qed.
Lemma ev_le_nth a b i k : ev_le a b -> nth_error (ev_map a) i = Some k -> nth_error (ev_map b) i = Some k.
Proof. intros [l ->] H. rewrite nth_error_app1; [exact H|]. apply nth_error_Some. congruence. Qed.
Lemma ev_push_le e k : ev_le e (ev_push e k).
Proof. exists [k]. reflexivity. Qed.
Lemma ev_push_inv e k : ev_inv e -> ev_inv (ev_push e k).
Proof.
  intros H k' i. unfold ev_get, ev_push. cbn [ev_idx ev_map assoc]. destruct (evkey_eqb_spec k k') as [->|Hn].
  - intro E. injection E as <-. rewrite nth_error_app2, Nat.sub_diag by lia. reflexivity.
  - intro E. apply H in E. rewrite nth_error_app1; [exact E|]. apply nth_error_Some. congruence.
Qed.
Lemma ev_ref_ok e k i e' : ev_inv e -> ev_ref e k = (i, e') -> ev_inv e' /\ ev_le e e' /\ nth_error (ev_map e') i = Some k.
Proof.
  intros H E. unfold ev_ref in E. destruct (ev_get e k) as [j|] eqn:Eg.
  - injection E as <- <-. split; [exact H|]. split; [apply ev_le_refl | apply H, Eg].
  - injection E as <- <-. split; [apply ev_push_inv, H|]. split; [apply ev_push_le|].
    unfold ev_push. cbn [ev_map]. rewrite nth_error_app2, Nat.sub_diag by lia. reflexivity.
Qed.

Section Sim.
  Variables (im : list (nat * nat)) (x : vctx) (rho : node -> F3G) (T : nat).
  Local Notation st := (ntype * nat * bool -> option F3G).
  Definition ea (f : fstate) (k : bool * nat) : option nat := assoc pkey_eqb (f_exp f) k.
  Definition f_inv (f : fstate) : Prop :=
    T <= f_tmp f /\ (forall k t, ea f k = Some t -> T <= t < f_tmp f) /\
    (forall k k' t, ea f k = Some t -> ea f k' = Some t -> k = k') /\ ev_inv (f_ev f).
  Definition f_le (f f' : fstate) : Prop := (forall k t, ea f k = Some t -> ea f' k = Some t) /\ ev_le (f_ev f) (f_ev f').
  Lemma f_le_refl f : f_le f f.
  Proof. split; [auto | apply ev_le_refl]. Qed.
  Lemma f_le_trans a b c : f_le a b -> f_le b c -> f_le a c.
  Proof. intros [A B] [C D]. split; [auto | eapply ev_le_trans; eassumption]. Qed.

  Lemma exp_tmp_ok f k t f' : f_inv f -> exp_tmp f k = (t, f') ->
    f_inv f' /\ f_le f f' /\ ea f' k = Some t /\ (f' = f \/ forall k' t', ea f k' = Some t' -> t' <> t).
  Proof.
    intros [I1 [I2 [I3 I4]]] E. unfold exp_tmp in E. destruct (assoc pkey_eqb (f_exp f) k) as [j|] eqn:Ea.
    - injection E as <- <-. split; [exact (conj I1 (conj I2 (conj I3 I4)))|]. split; [apply f_le_refl|]. split; [exact Ea | now left].
    - injection E as <- <-.
      assert (Hget : forall k', ea (mkF ((k, f_tmp f) :: f_exp f) (f_tmp f + 1) (f_ev f)) k' = if pkey_eqb k k' then Some (f_tmp f) else ea f k') by reflexivity.
      split; [|split; [|split]].
      + split; [cbn [f_tmp]; lia|]. split; [|split; [|exact I4]].
        * intros k' t. rewrite Hget. cbn [f_tmp]. destruct (pkey_eqb_spec k k'); intro E; [injection E as <-; lia|]. apply I2 in E. lia.
        * intros k1 k2 t. rewrite !Hget. destruct (pkey_eqb_spec k k1); destruct (pkey_eqb_spec k k2); intros E1 E2.
          -- congruence.
          -- injection E1 as <-. apply I2 in E2. lia.
          -- injection E2 as <-. apply I2 in E1. lia.
          -- eapply I3; eassumption.
      + split; [|apply ev_le_refl]. intros k' t E. rewrite Hget. destruct (pkey_eqb_spec k k'); [|exact E]. subst. unfold ea in E. congruence.
      + rewrite Hget. destruct (pkey_eqb_spec k k); congruence.
      + right. intros k' t' E. apply I2 in E. lia.
  Qed.
  Lemma to_eval_ok f r k r' f' : f_inv f -> to_eval f r k = (r', f') ->
    f_inv f' /\ f_le f f' /\ n_ty r' = Neval /\ nth_error (ev_map (f_ev f')) (n_id r') = Some k.
  Proof.
    intros [I1 [I2 [I3 I4]]] E. unfold to_eval in E. destruct (ev_ref (f_ev f) k) as [i e] eqn:Er. injection E as <- <-.
    destruct (ev_ref_ok _ _ _ _ I4 Er) as [A [B C]].
    split; [exact (conj I1 (conj I2 (conj I3 A)))|]. split; [split; [auto | exact B]|]. split; [reflexivity | exact C].
  Qed.
  Lemma fix_ref_ok f r r' f' : f_inv f -> fix_ref im f r = Ok (r', f') -> f_inv f' /\ f_le f f'.
  Proof.
    intros I E. unfold fix_ref in E.
    assert (He : forall k, Ok (to_eval f r k) = Ok (r', f') -> f_inv f' /\ f_le f f').
    { intros k H. destruct (to_eval_ok f r k r' f' I) as [A [B _]]; [congruence | split; assumption]. }
    destruct (n_ty r); try discriminate E; try (injection E as <- <-; split; [exact I | apply f_le_refl]); try (eapply He, E).
    destruct (assoc Nat.eqb im (n_id r)) as [c|]; [eapply He, E|].
    destruct (exp_tmp f (n_prime r, n_id r)) as [t f1] eqn:Et. destruct (exp_tmp_ok _ _ _ _ I Et) as [A [B _]].
    injection E as <- <-. split; assumption.
  Qed.
  Lemma fix_refs_ok l : forall f l' f', f_inv f -> fix_refs im f l = Ok (l', f') -> f_inv f' /\ f_le f f'.
  Proof.
    induction l as [|r l IH]; intros f l' f' I E; cbn [fix_refs] in E.
    - injection E as <- <-. split; [exact I | apply f_le_refl].
    - destruct (fix_ref im f r) as [[r1 f1]| | |] eqn:E1; try discriminate E. cbn [bind fst snd] in E.
      destruct (fix_refs im f1 l) as [[l1 f2]| | |] eqn:E2; try discriminate E. cbn [bind fst snd] in E. injection E as <- <-.
      destruct (fix_ref_ok _ _ _ _ I E1) as [I1 L1]. destruct (IH _ _ _ I1 E2) as [I2 L2]. split; [exact I2 | eapply f_le_trans; eassumption].
  Qed.
  Lemma fix_code_ok l : forall f l' f', f_inv f -> fix_code im f l = Ok (l', f') -> f_inv f' /\ f_le f f'.
  Proof.
    induction l as [|c l IH]; intros f l' f' I E; cbn [fix_code] in E.
    - injection E as <- <-. split; [exact I | apply f_le_refl].
    - destruct (fix_refs im f (i_src c)) as [[r1 f1]| | |] eqn:E1; try discriminate E. cbn [bind fst snd] in E.
      destruct (fix_ref im f1 (i_dest c)) as [[d f2]| | |] eqn:E2; try discriminate E. cbn [bind fst snd] in E.
      destruct (fix_code im f2 l) as [[l1 f3]| | |] eqn:E3; try discriminate E. cbn [bind fst snd] in E. injection E as <- <-.
      destruct (fix_refs_ok _ _ _ _ I E1) as [I1 L1]. destruct (fix_ref_ok _ _ _ _ I1 E2) as [I2 L2]. destruct (IH _ _ _ I2 E3) as [I3 L3].
      split; [exact I3|]. eapply f_le_trans; [exact L1|]. eapply f_le_trans; eassumption.
  Qed.

  Definition Rel (s : st) (t : nat -> option F3G) (f : fstate) : Prop :=
    (forall j v, s (Ntmp, j, false) = Some v -> j < T -> t j = Some v) /\
    (forall i p v, s (Nexp, i, p) = Some v ->
       match assoc Nat.eqb im i with
       | Some c => v = rho (N_new Ncm c None p)
       | None => exists k, ea f (p, i) = Some k /\ t k = Some v
       end).
  Lemma Rel_le s t f f' : f_le f f' -> Rel s t f -> Rel s t f'.
  Proof.
    intros [L _] [A B]. split; [exact A|]. intros i p v H. specialize (B i p v H). destruct (assoc Nat.eqb im i); [exact B|].
    destruct B as [k [B1 B2]]. exists k. auto.
  Qed.

  Variable e : evst.
  Hypothesis evals_ok : forall i k, nth_error (ev_map e) i = Some k -> nth_error (v_evals x) i = Some (rho (ev_node k)).
  Hypothesis evals_own : forall j v, nth_error (v_evals x) j = Some v -> rho (N_new Neval j None false) = v.
  Definition leaf_ok (r : node) : Prop :=
    match n_ty r with
    | Ntmp => True
    | Neval => n_id r < length (v_evals x)
    | _ => v_get x (fun _ => None) r = Ok (rho r)
    end.

  Lemma read_ok s t f r v r' f' : Rel s t f -> f_inv f -> ok_node T r -> rd rho s r = Some v -> fix_ref im f r = Ok (r', f') ->
    ev_le (f_ev f') e -> leaf_ok r' -> v_get x t r' = Ok v.
  Proof.
    intros HR I [Hc Hk] Hv Hf Hle Hl. unfold fix_ref in Hf.
    assert (He : forall k, Ok (to_eval f r k) = Ok (r', f') -> v = rho (ev_node k) -> v_get x t r' = Ok v).
    { intros k H ->. destruct (to_eval_ok f r k r' f' I) as [A [B [C D]]]; [congruence|].
      unfold v_get. rewrite C. apply vget_some, evals_ok. eapply ev_le_nth; eassumption. }
    destruct Hc as [ty [id [val0 [p [-> [Hc1 [Hc2 _]]]]]]]. cbn [N_new n_ty n_id n_prime] in *. unfold rd in Hv. cbn [N_new n_ty] in Hv.
    assert (Hleaf : ty <> Ntmp -> ty <> Nexp -> Some (rho (N_new ty id val0 p)) = Some v -> ty <> Neval -> r' = N_new ty id val0 p -> v_get x t r' = Ok v).
    { intros N1 N2 E N3 ->. injection E as <-. unfold leaf_ok in Hl. cbn [N_new n_ty] in Hl.
      destruct ty; try (rewrite (v_get_leaf x t (fun _ => None)) by discriminate; exact Hl); congruence. }
    destruct ty; try discriminate Hf;
      try (apply Hleaf; [discriminate | discriminate | exact Hv | discriminate | congruence]).
    - injection Hf as <- <-. destruct (Hk eq_refl) as [K1 K2]. cbn in K2. subst p. destruct HR as [R1 _].
      unfold v_get. cbn [N_new n_ty n_id]. unfold key in Hv. cbn [N_new n_ty n_id n_prime] in Hv. now rewrite (R1 _ _ Hv K1).
    - destruct HR as [_ R2]. unfold key in Hv. cbn [N_new n_ty n_id n_prime] in Hv. specialize (R2 id p v Hv).
      destruct (assoc Nat.eqb im id) as [c|].
      + eapply He; [exact Hf | exact R2].
      + destruct R2 as [k [R3 R4]]. unfold exp_tmp, ea in *. rewrite R3 in Hf. injection Hf as <- <-.
        unfold v_get. cbn [n_ty n_id]. now rewrite R4.
    - assert (val0 = None) by (apply Hc1; discriminate). subst val0. eapply He; [exact Hf|]. unfold ev_node. cbn [fst snd]. congruence.
    - assert (val0 = None) by (apply Hc1; discriminate). subst val0. eapply He; [exact Hf|]. unfold ev_node. cbn [fst snd]. congruence.
    - injection Hf as <- <-. assert (val0 = None) by (apply Hc1; discriminate). assert (p = false) by (apply Hc2; reflexivity). subst.
      unfold leaf_ok in Hl. cbn [N_new n_ty n_id] in Hl. unfold v_get. cbn [N_new n_ty n_id].
      destruct (nth_error (v_evals x) id) as [w|] eqn:En; [|apply nth_error_None in En; lia].
      rewrite (vget_some _ _ _ En). f_equal. rewrite <- (evals_own _ _ En). congruence.
  Qed.
  Lemma reads_ok s t l : forall f vs l' f', Rel s t f -> f_inv f -> Forall (ok_node T) l -> rds rho s l = Some vs -> fix_refs im f l = Ok (l', f') ->
    ev_le (f_ev f') e -> Forall leaf_ok l' -> mapM (v_get x t) l' = Ok vs.
  Proof.
    induction l as [|r l IH]; intros f vs l' f' HR I Hok Hv Hf Hle Hl; cbn [rds fix_refs] in *.
    - injection Hf as <- <-. injection Hv as <-. reflexivity.
    - destruct (rd rho s r) as [v|] eqn:E1; [|discriminate Hv]. destruct (rds rho s l) as [vs'|] eqn:E2; [|discriminate Hv]. injection Hv as <-.
      destruct (fix_ref im f r) as [[r1 f1]| | |] eqn:F1; try discriminate Hf. cbn [bind fst snd] in Hf.
      destruct (fix_refs im f1 l) as [[l1 f2]| | |] eqn:F2; try discriminate Hf. cbn [bind fst snd] in Hf. injection Hf as <- <-.
      inversion Hok as [|? ? Ho Hok']; subst. inversion Hl as [|? ? Hl1 Hl2]; subst.
      destruct (fix_ref_ok _ _ _ _ I F1) as [I1 L1]. destruct (fix_refs_ok _ _ _ _ I1 F2) as [I2 L2].
      cbn [mapM]. rewrite (read_ok s t f r v r1 f1 HR I Ho E1 F1 (ev_le_trans _ _ _ (proj2 L2) Hle) Hl1). cbn [bind].
      rewrite (IH f1 vs' l1 f2 (Rel_le _ _ _ _ L1 HR) I1 Hok' eq_refl F2 Hle Hl2). reflexivity.
  Qed.
  Lemma op_ok o vs v : apply_op o vs = Some v -> v_op o vs = Ok v.
  Proof. destruct o, vs as [|a [|b [|c vs]]]; cbn; intro H; try discriminate H; congruence. Qed.

  Lemma sim code : forall s s' t f code' f', run rho s code = Some s' -> fix_code im f code = Ok (code', f') -> f_inv f -> Rel s t f ->
    Forall (ok_instr T (im_keys im)) code -> ev_le (f_ev f') e -> Forall (fun c => Forall leaf_ok (i_src c)) code' ->
    exists t', v_run x t code' = Ok t' /\ Rel s' t' f'.
  Proof.
    induction code as [|c code IH]; intros s s' t f code' f' Hr Hf I HR Hok Hle Hl; cbn [run fix_code] in *.
    - injection Hf as <- <-. injection Hr as <-. exists t. split; [reflexivity | exact HR].
    - destruct c as [op dst src]. cbn [i_op i_dest i_src] in *.
      unfold exec_op in Hr. destruct (rds rho s src) as [vs|] eqn:Es; [|discriminate Hr].
      destruct (apply_op op vs) as [v|] eqn:Ea; [|discriminate Hr].
      destruct (fix_refs im f src) as [[l1 f1]| | |] eqn:F1; try discriminate Hf. cbn [bind fst snd] in Hf.
      destruct (fix_ref im f1 dst) as [[d1 f2]| | |] eqn:F2; try discriminate Hf. cbn [bind fst snd] in Hf.
      destruct (fix_code im f2 code) as [[c1 f3]| | |] eqn:F3; try discriminate Hf. cbn [bind fst snd] in Hf. injection Hf as <- <-.
      inversion Hok as [|? ? Ho Hok']; subst. inversion Hl as [|? ? Hl1 Hl2]; subst. cbn [i_src] in Hl1.
      destruct (fix_refs_ok _ _ _ _ I F1) as [I1 L1]. destruct (fix_ref_ok _ _ _ _ I1 F2) as [I2 L2]. destruct (fix_code_ok _ _ _ _ I2 F3) as [I3 L3].
      assert (Le1 : ev_le (f_ev f1) e) by (eapply ev_le_trans; [exact (proj2 L2)|]; eapply ev_le_trans; [exact (proj2 L3) | exact Hle]).
      pose proof (Rel_le _ _ _ _ L1 HR) as HR1.
      cbn [v_run i_src i_op i_dest]. rewrite (reads_ok s t src f vs l1 f1 HR I (proj1 Ho) Es F1 Le1 Hl1). cbn [bind].
      rewrite (op_ok _ _ _ Ea). cbn [bind].
      assert (Hd : n_ty d1 = Ntmp /\ Rel (upd s (key dst) v) (fun k => if k =? n_id d1 then Some v else t k) f2).
      { destruct Ho as [_ Ho]. cbn [i_dest] in Ho. destruct Ho as [[Ht [Hc Ho]]|[i [p [Hkey Hni]]]].
        - unfold fix_ref in F2. rewrite Ht in F2. injection F2 as <- <-. split; [exact Ht|]. destruct (Ho Ht) as [K1 K2].
          assert (Hkey : key dst = (Ntmp, n_id dst, false)) by (unfold key; now rewrite Ht, K2). rewrite Hkey.
          destruct HR1 as [R1 R2]. split.
          + intros j w Hw Hj. destruct (Nat.eqb_spec j (n_id dst)) as [->|Hn].
            * rewrite upd_same in Hw. congruence.
            * rewrite upd_other in Hw by congruence. now apply R1.
          + intros i p w Hw. rewrite upd_other in Hw by discriminate. specialize (R2 i p w Hw).
            destruct (assoc Nat.eqb im i); [exact R2|]. destruct R2 as [k [R3 R4]]. exists k. split; [exact R3|].
            destruct (Nat.eqb_spec k (n_id dst)) as [->|]; [|exact R4]. destruct I1 as [_ [I1 _]]. apply I1 in R3. lia.
        - unfold fix_ref in F2. unfold key in Hkey. injection Hkey as Hk1 Hk2 Hk3. rewrite Hk1 in F2.
          destruct (assoc Nat.eqb im (n_id dst)) as [q|] eqn:Eq; [exfalso; apply Hni; rewrite <- Hk2; eapply assoc_in_keys, Eq|].
          destruct (exp_tmp f1 (n_prime dst, n_id dst)) as [tt f4] eqn:Et. injection F2 as <- <-. split; [reflexivity|]. cbn [n_id].
          destruct (exp_tmp_ok _ _ _ _ I1 Et) as [J1 [J2 [J3 J4]]]. unfold key. rewrite Hk1.
          destruct HR1 as [R1 R2]. split.
          + intros j w Hw Hj. rewrite upd_other in Hw by discriminate.
            destruct (Nat.eqb_spec j tt) as [->|]; [|now apply R1]. destruct J1 as [_ [J1 _]]. apply J1 in J3. lia.
          + intros i' p' w Hw. destruct (key_eqb_spec (Nexp, i', p') (Nexp, n_id dst, n_prime dst)) as [Ek|Ek].
            * injection Ek as -> ->. rewrite upd_same in Hw. injection Hw as ->. rewrite Eq. exists tt. split; [exact J3|]. now rewrite Nat.eqb_refl.
            * rewrite upd_other in Hw by exact Ek. specialize (R2 i' p' w Hw). destruct (assoc Nat.eqb im i'); [exact R2|].
              destruct R2 as [k [R3 R4]]. exists k. split; [apply J2, R3|]. destruct (Nat.eqb_spec k tt) as [->|]; [|exact R4].
              exfalso. destruct J1 as [_ [_ [J1 _]]]. pose proof (J1 _ _ _ J3 (proj1 J2 _ _ R3)) as C. apply Ek. congruence. }
      destruct Hd as [Hd1 Hd2]. rewrite Hd1.
      exact (IH _ _ _ _ _ _ Hr F3 I2 Hd2 Hok' Hle Hl2).
  Qed.
End Sim.

(* ---------- the whole verifier code ---------- *)
Lemma fix_code_app im a : forall f b code f', fix_code im f (a ++ b) = Ok (code, f') ->
  exists a' f1 b', fix_code im f a = Ok (a', f1) /\ fix_code im f1 b = Ok (b', f') /\ code = a' ++ b'.
Proof.
  induction a as [|c a IH]; intros f b code f' H; cbn [app fix_code] in *.
  - exists [], f, code. auto.
  - destruct (fix_refs im f (i_src c)) as [[l1 f1]| | |]; try discriminate H. cbn [bind fst snd] in *.
    destruct (fix_ref im f1 (i_dest c)) as [[d1 f2]| | |]; try discriminate H. cbn [bind fst snd] in *.
    destruct (fix_code im f2 (a ++ b)) as [[c1 f3]| | |] eqn:E; try discriminate H. cbn [bind fst snd] in *.
    destruct (IH _ _ _ _ E) as [a' [g [b' [A [B C]]]]]. rewrite A. cbn [bind fst snd]. injection H as <- <-. subst c1.
    eexists. exists g, b'. split; [reflexivity|]. split; [exact B | reflexivity].
Qed.
Lemma push_all qs : forall e, ev_inv e -> let e' := fold_left (fun e q => ev_push e (true, false, q)) qs e in ev_inv e' /\ ev_le e e'.
Proof.
  induction qs as [|q qs IH]; intros e H; cbn [fold_left]; [split; [exact H | apply ev_le_refl]|].
  destruct (IH (ev_push e (true, false, q)) (ev_push_inv _ _ H)) as [A B]. split; [exact A|].
  eapply ev_le_trans; [apply ev_push_le | exact B].
Qed.

(* what the verifier is given stands for [rho] *)
Record answers (x : vctx) (rho : node -> F3G) (code : list instr) (e : evst) : Prop := {
  an_zero : rho (N_new Nnumber 0 (Some 0%Z) false) = e_ZERO;
  an_evals : forall i k, nth_error (ev_map e) i = Some k -> nth_error (v_evals x) i = Some (rho (ev_node k));
  an_own : forall j v, nth_error (v_evals x) j = Some v -> rho (N_new Neval j None false) = v;
  an_leaf : forall c r, In c code -> In r (i_src c) ->
    match n_ty r with
    | Ntmp => True
    | Neval => n_id r < length (v_evals x)
    | _ => v_get x (fun _ => None) r = Ok (rho r)
    end }.

Theorem verifier_ok fuel tbl im c_exp qs code e : verifier_code fuel tbl im c_exp qs = Ok (code, e) ->
  Forall wf_e tbl -> Forall (fun p => fst p < length tbl) im -> assoc Nat.eqb im c_exp = None ->
  forall x rho, answers x rho code e ->
  exists e0 v, nth_error tbl c_exp = Some e0 /\ den (with_im im tbl) rho false e0 v /\ execute_code x code = Ok v.
Proof.
  intros H Hw Him Hc x rho [Z A1 A2 A3]. unfold verifier_code in H.
  destruct (pil_code_gen fuel tbl None true (mkCtx 0 [] (im_keys im)) c_exp false) as [c| | |] eqn:Eg; try discriminate H. cbn [bind] in H.
  destruct (fix_code im (mkF [] (x_tmp c) (mkEV [] [])) (linear_code c)) as [[code' f]| | |] eqn:Ef; try discriminate H. cbn [bind fst snd] in H.
  injection H as <- <-.
  assert (Hnk : ~ In (false, c_exp) (im_keys im)) by (intro C; apply keys_assoc in C; destruct C; congruence).
  destruct (gen_grows _ _ _ _ _ _ _ Eg) as [[_ [_ [ext [G1 G2]]]] G3]. cbn [x_calc] in *. specialize (G3 Hnk).
  change (linear_code (mkCtx 0 [] (im_keys im))) with (@nil instr) in G1. cbn [app] in G1. subst ext.
  pose proof (gen_subst im tbl fuel true (mkCtx 0 [] (im_keys im)) c_exp false c (incl_refl _) Eg) as Eg'.
  destruct (codegen_ok (with_im im tbl) rho Z (with_im_wf im tbl Hw) fuel None true _ c_exp false c Eg') as [C1 [_ [ext [C2 C3]]]]; [now left|].
  change (linear_code (mkCtx 0 [] (im_keys im))) with (@nil instr) in C2. cbn [app] in C2. subst ext. cbn [x_calc] in C3.
  pose (s0 := fun k : ntype * nat * bool => match k with (Nexp, i, p) => option_map (fun c => rho (N_new Ncm c None p)) (assoc Nat.eqb im i) | _ => None end).
  destruct (C3 s0) as [s' [R1 [R2 _]]].
  { intros p i Hin. destruct (keys_assoc _ _ _ Hin) as [q Hq].
    assert (Hlen : i < length tbl).
    { clear -Him Hq. induction Him as [|[a v] l Ha _ IH]; cbn [assoc] in Hq; [discriminate Hq|].
      destruct (Nat.eqb_spec a i) as [->|]; [exact Ha | apply IH, Hq]. }
    destruct (nth_error tbl i) as [ei|] eqn:Ei; [|apply nth_error_None in Ei; lia].
    exists (E_cm q false), (rho (N_new Ncm q None p)). split; [rewrite with_im_nth, Ei, Hq; reflexivity|].
    split; [unfold s0; rewrite Hq; reflexivity|].
    change (N_new Ncm q None p) with (N_new Ncm q None (e_next (E_cm q false) || p)). apply D_cm; reflexivity. }
  destruct (R2 false c_exp C1) as [e0 [v [E0 [V0 D0]]]].
  rewrite with_im_nth, Hc in E0. destruct (nth_error tbl c_exp) as [e1|] eqn:E1; [|discriminate E0]. injection E0 as ->.
  exists e0, v. split; [reflexivity|]. split; [exact D0|].
  pose proof (push_all qs (f_ev f)) as Hpush.
  set (e := fold_left (fun e q => ev_push e (true, false, q)) qs (f_ev f)) in *.
  assert (I0 : f_inv (x_tmp c) (mkF [] (x_tmp c) (mkEV [] []))).
  { split; [cbn; lia|]. split; [intros k t C; discriminate C|]. split; [intros k k' t C; discriminate C | intros k i C; discriminate C]. }
  destruct (fix_code_ok im (x_tmp c) _ _ _ _ I0 Ef) as [If _]. pose proof If as [_ [_ [_ Iev]]]. destruct (Hpush Iev) as [_ Hle].
  destruct (sim im x rho (x_tmp c) e A1 A2 (linear_code c) s0 s' (fun _ => None) _ code' f R1 Ef I0) as [t' [T1 T2]].
  { split; [intros j w C; discriminate C|]. intros i p w Hs. unfold s0 in Hs. destruct (assoc Nat.eqb im i); [|discriminate Hs]. cbn in Hs. congruence. }
  { exact G2. }
  { exact Hle. }
  { apply Forall_forall. intros ci Hci. apply Forall_forall. intros r Hr. exact (A3 ci r Hci Hr). }
  destruct G3 as [body [op [src Hlast]]]. rewrite Hlast in Ef.
  destruct (fix_code_app _ _ _ _ _ _ Ef) as [a' [f1 [b' [F1 [F2 ->]]]]].
  destruct (fix_code_ok im (x_tmp c) _ _ _ _ I0 F1) as [If1 _].
  cbn [fix_code i_src i_dest i_op] in F2.
  destruct (fix_refs im f1 src) as [[l1 f2]| | |] eqn:F3; try discriminate F2. cbn [bind fst snd] in F2.
  destruct (fix_refs_ok im (x_tmp c) _ _ _ _ If1 F3) as [If2 _].
  unfold fix_ref in F2. cbn [N_new n_ty n_id n_prime] in F2. rewrite Hc in F2.
  destruct (exp_tmp f2 (false, c_exp)) as [k f3] eqn:Et. cbn [bind fst snd] in F2. injection F2 as <- <-.
  destruct (exp_tmp_ok (x_tmp c) _ _ _ _ If2 Et) as [_ [_ [K _]]].
  unfold execute_code. rewrite rev_app_distr. cbn [rev app]. rewrite T1. cbn [bind i_dest]. unfold v_get. cbn [n_ty n_id].
  destruct T2 as [_ T2]. specialize (T2 c_exp false v V0). rewrite Hc in T2. destruct T2 as [k' [T3 T4]].
  assert (k' = k) by congruence. subst k'. now rewrite T4.
Qed.

(* no reference to Z *)
Definition noZ (c : instr) : Prop := Forall (fun r => n_ty r <> NZ) (i_src c).
Lemma fix_ref_noZ im f r r' f' : fix_ref im f r = Ok (r', f') -> n_ty r <> NZ -> n_ty r' <> NZ.
Proof.
  intros E H. unfold fix_ref in E.
  assert (He : forall k, Ok (to_eval f r k) = Ok (r', f') -> n_ty r' <> NZ).
  { intros k Hk. unfold to_eval in Hk. destruct (ev_ref (f_ev f) k). injection Hk as <- _. discriminate. }
  destruct (n_ty r) eqn:Et; try discriminate E; try (injection E as <- _; congruence); try (eapply He, E).
  destruct (assoc Nat.eqb im (n_id r)); [eapply He, E|]. destruct (exp_tmp f (n_prime r, n_id r)). injection E as <- _. discriminate.
Qed.
Lemma fix_code_noZ im l : forall f l' f', fix_code im f l = Ok (l', f') -> Forall noZ l -> Forall noZ l'.
Proof.
  assert (Hr : forall l f l' f', fix_refs im f l = Ok (l', f') -> Forall (fun r => n_ty r <> NZ) l -> Forall (fun r => n_ty r <> NZ) l').
  { clear l. induction l as [|r l IH]; intros f l' f' E H; cbn [fix_refs] in E; [injection E as <- _; constructor|].
    destruct (fix_ref im f r) as [[r1 f1]| | |] eqn:E1; try discriminate E. cbn [bind fst snd] in E.
    destruct (fix_refs im f1 l) as [[l1 f2]| | |] eqn:E2; try discriminate E. cbn [bind fst snd] in E. injection E as <- _.
    inversion H; subst. constructor; [eapply fix_ref_noZ; eassumption | eapply IH; eassumption]. }
  induction l as [|c l IH]; intros f l' f' E H; cbn [fix_code] in E; [injection E as <- _; constructor|].
  destruct (fix_refs im f (i_src c)) as [[r1 f1]| | |] eqn:E1; try discriminate E. cbn [bind fst snd] in E.
  destruct (fix_ref im f1 (i_dest c)) as [[d f2]| | |] eqn:E2; try discriminate E. cbn [bind fst snd] in E.
  destruct (fix_code im f2 l) as [[l1 f3]| | |] eqn:E3; try discriminate E. cbn [bind fst snd] in E. injection E as <- _.
  inversion H; subst. constructor; [eapply Hr; eassumption | eapply IH; eassumption].
Qed.

(* ---------- the check ---------- *)
From Coq Require Import Ring.
Add Ring K_ring_ver : K_ring.
(* the polynomial with coefficients l at X *)
Fixpoint kpoly (X : K) (l : list K) : K := match l with [] => kzero | a :: r => kadd a (kmul X (kpoly X r)) end.

Lemma ev_get_in e k : ev_inv e -> In k (map fst (ev_idx e)) -> exists i, ev_get e k = Some i /\ nth_error (ev_map e) i = Some k.
Proof.
  intros H Hin. assert (Hg : exists i, ev_get e k = Some i).
  { unfold ev_get. clear H. induction (ev_idx e) as [|[a v] l IH]; cbn in *; [destruct Hin|].
    destruct (evkey_eqb_spec a k); [eauto|]. destruct Hin as [|Hin]; [contradiction | apply IH, Hin]. }
  destruct Hg as [i Hi]. exists i. split; [exact Hi | apply H, Hi].
Qed.
Lemma push_all_in qs : forall e q, In q qs \/ In (true, false, q) (map fst (ev_idx e)) ->
  In (true, false, q) (map fst (ev_idx (fold_left (fun e q => ev_push e (true, false, q)) qs e))).
Proof.
  induction qs as [|a qs IH]; intros e q H; cbn [fold_left]; [destruct H as [[]|H]; exact H|].
  apply IH. destruct H as [[->|H]|H]; [right; left; reflexivity | now left | right; right; exact H].
Qed.

Lemma q_sum_ok evals e rho x_n : ev_inv e -> (forall i k, nth_error (ev_map e) i = Some k -> nth_error evals i = Some (rho (ev_node k))) ->
  forall qs acc q, (forall c, In c qs -> In (true, false, c) (map fst (ev_idx e))) ->
  exists r, q_sum evals e qs x_n acc q = Ok r /\
    val r = kadd (val q) (kmul (val acc) (kpoly (val x_n) (map (fun c => val (rho (N_new Ncm c None false))) qs))) /\
    ((forall n, wf (rho n)) -> wf x_n -> wf acc -> wf q -> wf r).
Proof.
  intros Hi He. induction qs as [|c qs IH]; intros acc q Hin; cbn [q_sum map kpoly].
  - exists q. split; [reflexivity|]. split; [ring | auto].
  - destruct (ev_get_in e (true, false, c) Hi (Hin c (or_introl eq_refl))) as [i [G1 G2]]. rewrite G1. cbn [unwrap bind].
    rewrite (vget_some _ _ _ (He _ _ G2)). cbn [bind].
    destruct (IH (e_mul acc x_n) (e_add q (e_mul acc (rho (ev_node (true, false, c)))))) as [r [R1 [R2 R3]]]; [intros c' H'; apply Hin; now right|].
    exists r. split; [exact R1|]. split.
    + rewrite R2, val_add, !val_mul. change (ev_node (true, false, c)) with (N_new Ncm c None false). ring.
    + intros W1 W2 W3 W4. apply R3; try assumption; [apply wf_mul | apply wf_add].
Qed.

Lemma den_wf tbl rho : (forall n, wf (rho n)) -> forall p e v, den tbl rho p e v -> wf v.
Proof.
  intros Hw p e v H. induction H; try apply Hw; try assumption;
    repeat first [assumption | apply wf_add | apply wf_sub | apply wf_mul | apply wf_neg | apply Hw].
Qed.

Theorem check_ok fuel tbl im c_exp qs code e : verifier_code fuel tbl im c_exp qs = Ok (code, e) ->
  Forall wf_e tbl -> Forall (fun p => fst p < length tbl) im -> assoc Nat.eqb im c_exp = None ->
  forall x rho xi nbits, answers x rho code e -> (forall n, wf (rho n)) -> nth_error (v_challenge x) 7 = Some xi -> wf xi ->
  exists e0 v b, nth_error tbl c_exp = Some e0 /\ den (with_im im tbl) rho false e0 v /\
    check_constraint x code e qs nbits = Ok b /\
    let X := kpow (val xi) (2 ^ nbits) in
    (b = true <-> val v = kmul (kpoly X (map (fun c => val (rho (N_new Ncm c None false))) qs)) (ksub X kone)).
Proof.
  intros H Hw Him Hc x rho xi nbits HA Hwf Hxi Wxi.
  assert (HnZ : forall c r, In c code -> In r (i_src c) -> n_ty r <> NZ).
  { unfold verifier_code in H. destruct (pil_code_gen fuel tbl None true (mkCtx 0 [] (im_keys im)) c_exp false) as [c| | |] eqn:Eg; try discriminate H. cbn [bind] in H.
    destruct (fix_code im (mkF [] (x_tmp c) (mkEV [] [])) (linear_code c)) as [[code' f]| | |] eqn:Ef; try discriminate H. cbn [bind fst snd] in H.
    injection H as <- _. destruct (gen_grows _ _ _ _ _ _ _ Eg) as [[_ [_ [ext [G1 G2]]]] _].
    change (linear_code (mkCtx 0 [] (im_keys im))) with (@nil instr) in G1. cbn [app] in G1. subst ext.
    assert (Hn : Forall noZ code').
    { eapply fix_code_noZ; [exact Ef|]. eapply Forall_impl; [|exact G2]. intros a [Ha _]. eapply Forall_impl; [|exact Ha].
      intros r [[ty [id [v [p [-> [_ [_ Hz]]]]]]] _]. exact Hz. }
    intros ci r Hci Hr. rewrite Forall_forall in Hn. specialize (Hn ci Hci). unfold noZ in Hn. rewrite Forall_forall in Hn. apply Hn, Hr. }
  unfold check_constraint. rewrite (vget_some _ _ _ Hxi). cbn [bind].
  set (x_n := e_exp xi (2 ^ Z.of_nat nbits)).
  set (x' := mkV _ _ _ _ _ _ _ _ _ _ _ _).
  assert (HA' : answers x' rho code e).
  { destruct HA as [A1 A2 A3 A4]. constructor; try assumption. intros c r Hc' Hr. specialize (A4 c r Hc' Hr). specialize (HnZ c r Hc' Hr).
    destruct (n_ty r) eqn:E; try exact A4; try (unfold v_get in *; rewrite E in *; exact A4). congruence. }
  destruct (verifier_ok _ _ _ _ _ _ _ H Hw Him Hc x' rho HA') as [e0 [v [E0 [D0 X0]]]]. rewrite X0. cbn [bind].
  destruct HA as [A1 A2 A3 A4].
  assert (Hev : ev_inv e /\ forall c, In c qs -> In (true, false, c) (map fst (ev_idx e))).
  { unfold verifier_code in H. destruct (pil_code_gen fuel tbl None true (mkCtx 0 [] (im_keys im)) c_exp false) as [c| | |]; try discriminate H. cbn [bind] in H.
    destruct (fix_code im (mkF [] (x_tmp c) (mkEV [] [])) (linear_code c)) as [[code' f]| | |] eqn:Ef; try discriminate H. cbn [bind fst snd] in H.
    injection H as <- <-.
    assert (I0 : f_inv (x_tmp c) (mkF [] (x_tmp c) (mkEV [] []))).
    { split; [cbn; lia|]. split; [intros k t C; discriminate C|]. split; [intros k k' t C; discriminate C | intros k i C; discriminate C]. }
    destruct (fix_code_ok im (x_tmp c) _ _ _ _ I0 Ef) as [If _]. destruct If as [_ [_ [_ Iev]]].
    split; [apply (push_all qs (f_ev f) Iev)|]. intros q Hq. apply push_all_in. now left. }
  destruct Hev as [Hi Hin]. destruct (q_sum_ok (v_evals x) e rho x_n Hi A2 qs e_ONE e_ZERO Hin) as [q [Q1 [Q2 Q3]]].
  rewrite Q1. cbn [bind]. exists e0, v, (e__eq v (e_mul q (e_sub x_n e_ONE))). split; [exact E0|]. split; [exact D0|]. split; [reflexivity|].
  assert (Hx : val x_n = kpow (val xi) (2 ^ nbits)).
  { unfold x_n. rewrite val_exp by (apply Z.pow_nonneg; lia). f_equal. rewrite Z2Nat.inj_pow by lia. now rewrite Nat2Z.id. }
  assert (Wx : wf x_n) by (apply wf_exp, Wxi). assert (W1 : wf e_ONE) by (split; reflexivity). assert (W0 : wf e_ZERO) by (split; reflexivity).
  cbv zeta. rewrite <- Hx. rewrite e_eqs.
  - rewrite val_mul, Q2, val_sub, val_ONE, val_ZERO.
    replace (kadd kzero (kmul kone (kpoly (val x_n) (map (fun c => val (rho (N_new Ncm c None false))) qs)))) with
      (kpoly (val x_n) (map (fun c => val (rho (N_new Ncm c None false))) qs)) by ring. reflexivity.
  - eapply den_wf; eassumption.
  - apply wf_mul.
Qed.
