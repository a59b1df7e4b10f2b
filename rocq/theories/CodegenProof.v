(* Proofs about CodegenModel.v. *)
From Coq Require Import Ring.
From Verif Require Import Base GlModel FrField F3gModel Cubic F3gProof ListAux CodegenModel.
Open Scope nat_scope.
Open Scope res_scope.

Section ExprInd.
  Variable Q : expr -> Prop.
  Hypothesis H : forall op id next value values const_ keep, Forall Q values -> Q (mkE op id next value values const_ keep).
  Fixpoint expr_ind' (e : expr) : Q e :=
    match e with
    | mkE op id next value values const_ keep =>
        H op id next value values const_ keep
          ((fix go l := match l return Forall Q l with [] => Forall_nil Q | x :: r => Forall_cons x (expr_ind' x) (go r) end) values)
    end.
End ExprInd.

(* ---------- the traversal ---------- *)
Fixpoint sizes (l : list expr) : nat := match l with [] => 0 | x :: r => e_size x + sizes r end.
Lemma e_size_eq e : e_size e = S (sizes (e_values e)).
Proof.
  destruct e as [op id next value values c k]. reflexivity.
Qed.
Lemma sizes_app l r : sizes (l ++ r) = sizes l + sizes r.
Proof. induction l as [|x l IH]; cbn [app sizes]; [reflexivity | rewrite IH; lia]. Qed.
Lemma sizes_rev l : sizes (rev l) = sizes l.
Proof. induction l as [|x l IH]; [reflexivity|]. cbn [rev sizes]. rewrite sizes_app, IH. cbn [sizes]. lia. Qed.

(* the order in which the first loop pushes the nodes of a tree *)
Fixpoint pushes (e : expr) : list (expr * nat) :=
  let 'mkE _ _ _ _ vs _ _ := e in
  (e, length vs) :: (fix go l := match l with [] => [] | x :: r => go r ++ pushes x end) vs.
Fixpoint pushes_rev (l : list expr) : list (expr * nat) := match l with [] => [] | x :: r => pushes_rev r ++ pushes x end.
Lemma pushes_eq e : pushes e = (e, length (e_values e)) :: pushes_rev (e_values e).
Proof.
  destruct e as [op id next value values c k]. reflexivity.
Qed.
Fixpoint pushes_l (l : list expr) : list (expr * nat) := match l with [] => [] | x :: r => pushes x ++ pushes_l r end.
Lemma pushes_l_app a b : pushes_l (a ++ b) = pushes_l a ++ pushes_l b.
Proof. induction a as [|x a IH]; cbn [app pushes_l]; [reflexivity | now rewrite IH, app_assoc]. Qed.
Lemma pushes_l_rev l : pushes_l (rev l) = pushes_rev l.
Proof. induction l as [|x l IH]; [reflexivity|]. cbn [rev pushes_rev]. rewrite pushes_l_app, IH. cbn [pushes_l]. now rewrite app_nil_r. Qed.

Lemma prefix_loop_ok : forall fuel seen acc, sizes seen <= fuel -> prefix_loop fuel seen acc = Ok (rev (pushes_l seen) ++ acc).
Proof.
  induction fuel as [|fuel IH]; intros seen acc Hs.
  - destruct seen as [|e r]; [reflexivity|]. cbn [sizes] in Hs. rewrite e_size_eq in Hs. lia.
  - destruct seen as [|e r]; [reflexivity|]. cbn [prefix_loop]. rewrite IH.
    + rewrite pushes_l_app, pushes_l_rev. cbn [pushes_l]. rewrite (pushes_eq e). cbn [app].
      cbn [rev]. rewrite <- app_assoc. reflexivity.
    + cbn [sizes] in Hs. rewrite e_size_eq in Hs. rewrite sizes_app, sizes_rev. lia.
Qed.

Section Post.
  Variables (St R : Type) (process : St -> expr -> list R -> res (R * St)).
  (* plain recursive post-order evaluation: children from left to right, then the node *)
  Fixpoint post (e : expr) (s : St) : res (R * St) :=
    let 'mkE _ _ _ _ vs _ _ := e in
    do rs <- (fix go l s := match l with
              | [] => Ok ([], s)
              | x :: r => do a <- post x s; do b <- go r (snd a); Ok (fst a :: fst b, snd b)
              end) vs s;
    process (snd rs) e (fst rs).
  Fixpoint posts (l : list expr) (s : St) : res (list R * St) :=
    match l with
    | [] => Ok ([], s)
    | x :: r => do a <- post x s; do b <- posts r (snd a); Ok (fst a :: fst b, snd b)
    end.
  Lemma post_eq e s : post e s = do rs <- posts (e_values e) s; process (snd rs) e (fst rs).
  Proof. destruct e. reflexivity. Qed.
  Lemma posts_len l : forall s rs, posts l s = Ok rs -> length (fst rs) = length l.
  Proof.
    induction l as [|x r IH]; intros s rs H; cbn [posts] in H.
    - injection H as <-. reflexivity.
    - destruct (post x s) as [a| | |]; try discriminate H. cbn [bind] in H.
      destruct (posts r (snd a)) as [b| | |] eqn:E; try discriminate H. cbn [bind] in H. injection H as <-.
      cbn [fst length]. now rewrite (IH _ _ E).
  Qed.

  Lemma result_loop_post e : forall k results s,
    result_loop process (rev (pushes e) ++ k) results s =
    do a <- post e s; result_loop process k (fst a :: results) (snd a).
  Proof.
    induction e as [op id next value values c kp IH] using expr_ind'. intros k results s.
    set (e := mkE op id next value values c kp). rewrite pushes_eq, post_eq. cbn [e_values e rev]. fold e.
    rewrite <- app_assoc.
    assert (G : forall vs, Forall (fun e => forall k results s, result_loop process (rev (pushes e) ++ k) results s =
                  do a <- post e s; result_loop process k (fst a :: results) (snd a)) vs ->
             forall k results s, result_loop process (rev (pushes_rev vs) ++ k) results s =
             do b <- posts vs s; result_loop process k (rev (fst b) ++ results) (snd b)).
    { clear. induction 1 as [|x r Hx _ IHr]; intros k results s; [reflexivity|].
      cbn [pushes_rev posts]. rewrite rev_app_distr, <- app_assoc, Hx.
      destruct (post x s) as [a| | |]; try reflexivity. cbn [bind]. rewrite IHr.
      destruct (posts r (snd a)) as [b| | |]; try reflexivity. cbn [bind fst snd rev]. now rewrite <- app_assoc. }
    rewrite (G values IH). destruct (posts values s) as [b| | |] eqn:Eb; try reflexivity. cbn [bind].
    pose proof (posts_len _ _ _ Eb) as Hl. cbn [app result_loop].
    assert (Hn : length (rev (fst b)) = length values) by (rewrite rev_length; exact Hl).
    replace (length (rev (fst b) ++ results) <? length values) with false
      by (symmetry; apply Nat.ltb_ge; rewrite app_length; lia).
    rewrite <- Hn, firstn_app, firstn_all, Nat.sub_diag, skipn_app, skipn_all, Nat.sub_diag.
    cbn [firstn skipn app]. rewrite app_nil_r, rev_involutive. reflexivity.
  Qed.

  Theorem traversal_post root s : postorder_traversal process root s = post root s.
  Proof.
    unfold postorder_traversal. rewrite prefix_loop_ok by (cbn [sizes]; lia). cbn [bind pushes_l].
    rewrite app_nil_r, app_nil_r. rewrite <- (app_nil_r (rev (pushes root))), result_loop_post.
    destruct (post root s) as [[r s']| | |]; reflexivity.
  Qed.
End Post.

(* post-order list of the nodes of a tree *)
Fixpoint post_nodes (e : expr) : list expr :=
  let 'mkE _ _ _ _ vs _ _ := e in
  (fix go l := match l with [] => [] | x :: r => post_nodes x ++ go r end) vs ++ [e].
Fixpoint posts_nodes (l : list expr) : list expr := match l with [] => [] | x :: r => post_nodes x ++ posts_nodes r end.
Lemma post_nodes_eq e : post_nodes e = posts_nodes (e_values e) ++ [e].
Proof. destruct e. reflexivity. Qed.

(* logging every visit *)
Lemma visits_spec e : forall log, post (list expr) unit (fun log n _ => Ok (tt, log ++ [n])) e log = Ok (tt, log ++ post_nodes e).
Proof.
  induction e as [op id next value values c kp IH] using expr_ind'. intros log.
  rewrite post_eq, post_nodes_eq. cbn [e_values].
  assert (G : exists us, posts (list expr) unit (fun log n _ => Ok (tt, log ++ [n])) values log = Ok (us, log ++ posts_nodes values)).
  { revert log. induction IH as [|x r Hx _ IHr]; intros log.
    - exists []. cbn. now rewrite app_nil_r.
    - cbn [posts posts_nodes]. rewrite Hx. cbn [bind snd fst]. destruct (IHr (log ++ post_nodes x)) as [us ->].
      cbn [bind fst snd]. eexists. rewrite <- app_assoc. reflexivity. }
  destruct G as [us ->]. cbn [bind snd]. now rewrite app_assoc.
Qed.

(* ---------- meaning of expressions ---------- *)
(* [rho] gives the value of every reference to data that exists before the code runs; references to
   expressions stand for the expression in the table, on the next row if shifted *)
Section Den.
  Variables (tbl : list expr) (rho : node -> F3G).
  Definition num (k : Z) : F3G := rho (N_new Nnumber 0 (Some k) false).
  Inductive den : bool -> expr -> F3G -> Prop :=
  | D_add p e a b r x y : e_op e = OAdd -> e_values e = a :: b :: r -> den p a x -> den p b y -> den p e (e_add x y)
  | D_sub p e a b r x y : e_op e = OSub -> e_values e = a :: b :: r -> den p a x -> den p b y -> den p e (e_sub x y)
  | D_mul p e a b r x y : e_op e = OMul -> e_values e = a :: b :: r -> den p a x -> den p b y -> den p e (e_mul x y)
  | D_muladd p e a b c r x y z : e_op e = OMuladd -> e_values e = a :: b :: c :: r ->
      den p a x -> den p b y -> den p c z -> den p e (e_add (e_mul x y) z)
  | D_addc p e a r k x : e_op e = OAddc -> e_values e = a :: r -> e_const e = Some k -> den p a x -> den p e (e_add x (num k))
  | D_mulc p e a r k x : e_op e = OMulc -> e_values e = a :: r -> e_const e = Some k -> den p a x -> den p e (e_mul x (num k))
  | D_neg p e a r x : e_op e = ONeg -> e_values e = a :: r -> den p a x -> den p e (e_neg x)
  | D_exp p e i e' v : e_op e = OExp -> e_id e = Some i -> e_next e && p = false -> nth_error tbl i = Some e' ->
      den (e_next e || p) e' v -> den p e v
  | D_cm p e i : e_op e = OCm -> e_id e = Some i -> e_next e && p = false -> den p e (rho (N_new Ncm i None (e_next e || p)))
  | D_const p e i : e_op e = OConst -> e_id e = Some i -> e_next e && p = false -> den p e (rho (N_new Nconst i None (e_next e || p)))
  | D_q p e i : e_op e = OQ -> e_id e = Some i -> e_next e && p = false -> den p e (rho (N_new Nq i None (e_next e || p)))
  | D_number p e : e_op e = ONumber -> den p e (rho (N_new Nnumber 0 (e_value e) false))
  | D_public p e i : e_op e = OPublic -> e_id e = Some i -> den p e (rho (N_new Npublic i None false))
  | D_challenge p e i : e_op e = OChallenge -> e_id e = Some i -> den p e (rho (N_new Nchallenge i None false))
  | D_eval p e i : e_op e = OEval -> e_id e = Some i -> den p e (rho (N_new Neval i None false))
  | D_xdiv p e : e_op e = OXDivXSubXi -> den p e (rho (N_new NxDivXSubXi 0 None false))
  | D_xdivw p e : e_op e = OXDivXSubWXi -> den p e (rho (N_new NxDivXSubWXi 0 None false))
  | D_x p e : e_op e = OX -> den p e (rho (N_new Nx 0 None false)).

  Lemma den_fun p e v : den p e v -> forall w, den p e w -> v = w.
  Proof.
    induction 1; intros w Hw; inversion Hw; subst; try congruence;
      repeat match goal with
      | A : e_values ?e = _, B : e_values ?e = _ |- _ => rewrite A in B; injection B as <- <- <- <- || injection B as <- <- <- || injection B as <- <-
      | A : e_const ?e = _, B : e_const ?e = _ |- _ => rewrite A in B; injection B as <-
      | A : e_id ?e = _, B : e_id ?e = _ |- _ => rewrite A in B; injection B as <-
      | A : nth_error ?l ?i = _, B : nth_error ?l ?i = _ |- _ => rewrite A in B; injection B as <-
      end;
      repeat match goal with IH : forall w, den ?p ?e w -> ?x = w, A : den ?p ?e ?y |- _ => specialize (IH _ A); subst end;
      reflexivity.
  Qed.

  (* every operator has the operands it needs *)
  Definition arity_ok (e : expr) : Prop :=
    match e_op e with
    | OAdd | OSub | OMul => 2 <= length (e_values e)
    | OMuladd => 3 <= length (e_values e)
    | _ => True
    end.
  Inductive wf_e : expr -> Prop := WF e : arity_ok e -> Forall wf_e (e_values e) -> wf_e e.

  Fixpoint exp_refs (p : bool) (e : expr) : list (bool * nat) :=
    let 'mkE op id next _ vs _ _ := e in
    (match op, id with OExp, Some i => [(next || p, i)] | _, _ => [] end) ++
    (fix go l := match l with [] => [] | x :: r => exp_refs p x ++ go r end) vs.
  Fixpoint exps_refs (p : bool) (l : list expr) : list (bool * nat) :=
    match l with [] => [] | x :: r => exp_refs p x ++ exps_refs p r end.
  Lemma exp_refs_eq p e : exp_refs p e =
    (match e_op e, e_id e with OExp, Some i => [(e_next e || p, i)] | _, _ => [] end) ++ exps_refs p (e_values e).
  Proof.
    destruct e as [op id next value vs c k]. cbn [exp_refs e_op e_id e_next e_values]. f_equal.
    induction vs as [|x r IH]; [reflexivity|]. cbn [exps_refs]. now rewrite <- IH.
  Qed.
End Den.

(* ---------- fused multiply-add ---------- *)
Add Ring FrR : Fr_ring.
Lemma e_add_comm' a b : e_add a b = e_add b a.
Proof.
  unfold e_add. destruct (d3 a), (d3 b); unfold e_new, e_from; f_equal; ring.
Qed.
Lemma e_sub_zero a : e_sub e_ZERO a = e_neg a.
Proof.
  unfold e_sub, e_neg. change (d3 e_ZERO) with false. change (c0 e_ZERO) with f0. cbn iota.
  destruct (d3 a); unfold e_new, e_from; f_equal; ring.
Qed.

Definition set_values (e : expr) (ks : list expr) : expr :=
  let 'mkE op id next value _ const_ keep := e in mkE op id next value ks const_ keep.
Definition fused (ms : list expr) (v : expr) : res expr :=
  match ms with
  | m0 :: m1 :: _ => do a <- find_muladd m0; do b <- find_muladd m1; do c <- find_muladd v; Ok (E_new OMuladd None None [a; b; c])
  | _ => Panic
  end.
Lemma kids_eq vs : (fix go l := match l with [] => Ok [] | x :: r => do y <- find_muladd x; do ys <- go r; Ok (y :: ys) end) vs = mapM find_muladd vs.
Proof. induction vs as [|x r IH]; [reflexivity|]. cbn [mapM]. now rewrite <- IH. Qed.

Lemma find_muladd_eq e :
  find_muladd e =
  match e_values e with
  | [] => Ok e
  | v0 :: rest =>
      if is_add (e_op e) then
        match rest with
        | [] => Panic
        | v1 :: _ =>
            if is_mul (e_op v0) then fused (e_values v0) v1 else
            if is_mul (e_op v1) then fused (e_values v1) v0 else
            do ks <- mapM find_muladd (e_values e); Ok (set_values e ks)
        end
      else do ks <- mapM find_muladd (e_values e); Ok (set_values e ks)
  end.
Proof.
  destruct e as [op id next value values const_ keep]. cbn [e_values].
  destruct values as [|v0 rest]; [reflexivity|]. rewrite <- kids_eq.
  destruct v0 as [o0 i0 n0 a0 ms0 k0 kp0], rest as [|[o1 i1 n1 a1 ms1 k1 kp1] r]; reflexivity.
Qed.

Definition same_meaning (e e' : expr) : Prop := forall tbl rho p v, den tbl rho p e v <-> den tbl rho p e' v.
Definition refines (e e' : expr) : Prop :=
  wf_e e' /\ (forall p, incl (exp_refs p e') (exp_refs p e)) /\ is_nop e' = is_nop e /\ same_meaning e e'.

Lemma den_values tbl rho e ks : Forall2 (fun a b => forall p v, den tbl rho p a v -> den tbl rho p b v) (e_values e) ks ->
  forall p v, den tbl rho p e v -> den tbl rho p (set_values e ks) v.
Proof.
  intros HF p v H.
  assert (Hop : e_op (set_values e ks) = e_op e /\ e_values (set_values e ks) = ks /\ e_id (set_values e ks) = e_id e /\
          e_next (set_values e ks) = e_next e /\ e_value (set_values e ks) = e_value e /\ e_const (set_values e ks) = e_const e)
    by (destruct e; repeat split; reflexivity).
  destruct Hop as [H1 [H2 [H3 [H4 [H5 H6]]]]].
  inversion H; subst;
    try match goal with A : e_values e = _ |- _ => rewrite A in HF end;
    repeat match goal with A : Forall2 _ (_ :: _) _ |- _ => inversion A; subst; clear A end.
  - eapply D_add; [congruence | eassumption | auto | auto].
  - eapply D_sub; [congruence | eassumption | auto | auto].
  - eapply D_mul; [congruence | eassumption | auto | auto].
  - eapply D_muladd; [congruence | eassumption | auto | auto | auto].
  - eapply D_addc; [congruence | eassumption | congruence | auto].
  - eapply D_mulc; [congruence | eassumption | congruence | auto].
  - eapply D_neg; [congruence | eassumption | auto].
  - eapply D_exp; [congruence | rewrite H3; eassumption | rewrite H4; assumption | eassumption | rewrite H4; assumption].
  - rewrite <- H4 in *. apply D_cm; congruence.
  - rewrite <- H4 in *. apply D_const; congruence.
  - rewrite <- H4 in *. apply D_q; congruence.
  - rewrite <- H5. apply D_number; congruence.
  - apply D_public; congruence.
  - apply D_challenge; congruence.
  - apply D_eval; congruence.
  - apply D_xdiv; congruence.
  - apply D_xdivw; congruence.
  - apply D_x; congruence.
Qed.

Lemma set_values_same e ks : e_op (set_values e ks) = e_op e /\ e_values (set_values e ks) = ks /\ e_id (set_values e ks) = e_id e /\
  e_next (set_values e ks) = e_next e.
Proof. destruct e; repeat split; reflexivity. Qed.
Lemma set_values_twice e ks : set_values (set_values e ks) (e_values e) = e.
Proof. destruct e; reflexivity. Qed.

Lemma exps_refs_incl p ks vs : Forall2 (fun a b => forall p, incl (exp_refs p b) (exp_refs p a)) vs ks -> incl (exps_refs p ks) (exps_refs p vs).
Proof.
  induction 1 as [|a b vs ks Hab _ IH]; [intros x Hx; exact Hx|]. cbn [exps_refs].
  apply incl_app; [apply incl_appl, Hab | apply incl_appr, IH].
Qed.
Lemma in_exps_refs p x vs : In x vs -> incl (exp_refs p x) (exps_refs p vs).
Proof. induction vs as [|y r IH]; [intros []|]. intros [->|H]; cbn [exps_refs]; [apply incl_appl, incl_refl | apply incl_appr, IH, H]. Qed.

Lemma F2_len {A B} (Rl : A -> B -> Prop) l r : Forall2 Rl l r -> length l = length r.
Proof. induction 1; cbn [length]; congruence. Qed.
Lemma refines_values e ks : wf_e e -> Forall2 refines (e_values e) ks -> refines e (set_values e ks).
Proof.
  intros Hw HF. destruct (set_values_same e ks) as [H1 [H2 [H3 H4]]].
  pose proof (F2_len _ _ _ HF) as Hl.
  split; [|split; [|split]].
  - constructor.
    + inversion Hw as [e0 Ha _]; subst. unfold arity_ok in *. rewrite H1, H2, <- Hl. exact Ha.
    + rewrite H2. clear -HF. induction HF as [|a b ? ? [Hb _] _ IH]; constructor; assumption.
  - intros p. rewrite !exp_refs_eq, H1, H2, H3, H4. apply incl_app; [apply incl_appl, incl_refl | apply incl_appr].
    apply exps_refs_incl. clear -HF. induction HF as [|a b ? ? [_ [Hb _]] _ IH]; constructor; assumption.
  - unfold is_nop. now rewrite H1.
  - intros tbl rho p v. split.
    + apply den_values. clear -HF. induction HF as [|a b ? ? [_ [_ [_ Hb]]] _ IH]; constructor; [intros; apply Hb; assumption | assumption].
    + intros H. rewrite <- (set_values_twice e ks). revert H. apply den_values. rewrite H2.
      clear -HF. induction HF as [|a b ? ? [_ [_ [_ Hb]]] _ IH]; constructor; [intros; apply Hb; assumption | assumption].
Qed.

Lemma is_add_op e : is_add (e_op e) = true -> e_op e = OAdd.
Proof. destruct (e_op e); intros H; try discriminate H; reflexivity. Qed.
Lemma is_mul_op e : is_mul (e_op e) = true -> e_op e = OMul.
Proof. destruct (e_op e); intros H; try discriminate H; reflexivity. Qed.
Lemma wf_values e : wf_e e -> Forall wf_e (e_values e).
Proof. now inversion 1. Qed.
Lemma wf_arity e : wf_e e -> arity_ok e.
Proof. now inversion 1. Qed.

Ltac den_inv H := inversion H; subst; try congruence;
  repeat match goal with A : e_values ?e = _, B : e_values ?e = _ |- _ =>
    rewrite A in B; (injection B as <- <- <- <- || injection B as <- <- <- || injection B as <- <-) end.

Lemma refines_fused e m v m0 m1 r x y c a b : e_op e = OAdd -> In m (e_values e) -> In v (e_values e) ->
  (exists rest, e_values e = m :: v :: rest) \/ (exists rest, e_values e = v :: m :: rest) ->
  e_op m = OMul -> e_values m = m0 :: m1 :: r ->
  refines m0 x -> refines m1 y -> refines v c -> a = x -> b = y ->
  refines e (E_new OMuladd None None [a; b; c]).
Proof.
  intros Ho Hm Hv Hr Hmo Hmv [W0 [R0 [_ D0]]] [W1 [R1 [_ D1]]] [W2 [R2 [_ D2]]] -> ->.
  split; [|split; [|split]].
  - constructor; [cbn; lia|]. cbn. repeat (constructor; [assumption|]). constructor.
  - intros p. rewrite exp_refs_eq, (exp_refs_eq p e), Ho. cbn [E_new e_op e_id e_values exps_refs app].
    assert (Hmi : incl (exps_refs p (e_values m)) (exps_refs p (e_values e))).
    { eapply incl_tran; [|apply (in_exps_refs p m _ Hm)]. rewrite (exp_refs_eq p m). apply incl_appr, incl_refl. }
    repeat apply incl_app.
    + eapply incl_tran; [apply R0|]. eapply incl_tran; [|exact Hmi]. apply in_exps_refs. rewrite Hmv. now left.
    + eapply incl_tran; [apply R1|]. eapply incl_tran; [|exact Hmi]. apply in_exps_refs. rewrite Hmv. right. now left.
    + eapply incl_tran; [apply R2|]. apply in_exps_refs, Hv.
    + intros z [].
  - unfold is_nop. rewrite Ho. reflexivity.
  - intros tbl rho p w. split; intros H.
    + destruct Hr as [[rest Hr]|[rest Hr]]; den_inv H.
      * match goal with A : den _ _ p m _ |- _ => den_inv A end.
        eapply D_muladd; [reflexivity | reflexivity | apply D0; eassumption | apply D1; eassumption | apply D2; eassumption].
      * match goal with A : den _ _ p m _ |- _ => den_inv A end.
        rewrite e_add_comm'.
        eapply D_muladd; [reflexivity | reflexivity | apply D0; eassumption | apply D1; eassumption | apply D2; eassumption].
    + inversion H; subst; try discriminate.
      match goal with A : e_values _ = _ |- _ => cbn in A; injection A as <- <- <- <- end.
      assert (Hmd : den tbl rho p m (e_mul x0 y0)).
      { eapply D_mul; [exact Hmo | exact Hmv | apply D0; assumption | apply D1; assumption]. }
      destruct Hr as [[rest Hr]|[rest Hr]].
      * eapply D_add; [exact Ho | exact Hr | exact Hmd | apply D2; assumption].
      * rewrite e_add_comm'. eapply D_add; [exact Ho | exact Hr | apply D2; assumption | exact Hmd].
Qed.

Theorem find_muladd_ok e : wf_e e -> exists e', find_muladd e = Ok e' /\ refines e e'.
Proof.
  enough (H : (wf_e e -> exists e', find_muladd e = Ok e' /\ refines e e') /\
              Forall (fun e => wf_e e -> exists e', find_muladd e = Ok e' /\ refines e e') (e_values e)) by apply H.
  induction e as [op id next value values c k IH] using expr_ind'.
  set (e := mkE op id next value values c k). change values with (e_values e) in IH.
  split; [|eapply Forall_impl; [|exact IH]; intros a Ha; apply Ha].
  intros Hw. pose proof (wf_values e Hw) as Hwv. pose proof (wf_arity e Hw) as Har. rewrite find_muladd_eq.
  assert (Hk : exists ks, mapM find_muladd (e_values e) = Ok ks /\ Forall2 refines (e_values e) ks).
  { clear -IH Hwv. induction IH as [|x r Hx _ IHr]; [exists []; split; [reflexivity | constructor]|].
    inversion Hwv; subst. destruct (proj1 Hx) as [x' [Hx1 Hx2]]; [assumption|].
    destruct IHr as [ks [Hk1 Hk2]]; [assumption|]. exists (x' :: ks). cbn [mapM]. rewrite Hx1. cbn [bind]. rewrite Hk1.
    split; [reflexivity | constructor; assumption]. }
  destruct Hk as [ks [Hk1 Hk2]].
  destruct (e_values e) as [|v0 rest] eqn:Ev.
  { exists e. split; [reflexivity|]. split; [exact Hw|]. split; [intros; apply incl_refl|]. split; [reflexivity | intros ? ? ? ?; reflexivity]. }
  rewrite <- Ev in *.
  assert (Hdone : exists e', (do ks <- mapM find_muladd (e_values e); Ok (set_values e ks)) = Ok e' /\ refines e e').
  { rewrite Hk1. cbn [bind]. eexists. split; [reflexivity|]. now apply refines_values. }
  destruct (is_add (e_op e)) eqn:Ea; [|exact Hdone]. apply is_add_op in Ea.
  destruct rest as [|v1 rest]; [unfold arity_ok in Har; rewrite Ea, Ev in Har; cbn in Har; lia|].
  assert (Hfuse : forall m v, (exists rest, e_values e = m :: v :: rest) \/ (exists rest, e_values e = v :: m :: rest) ->
            is_mul (e_op m) = true -> exists e', fused (e_values m) v = Ok e' /\ refines e e').
  { intros m v Hmv Em. apply is_mul_op in Em.
    assert (Hm : In m (e_values e)) by (destruct Hmv as [[r ->]|[r ->]]; [now left | right; now left]).
    assert (Hv : In v (e_values e)) by (destruct Hmv as [[r ->]|[r ->]]; [right; now left | now left]).
    rewrite Forall_forall in Hwv, IH. pose proof (IH m Hm) as [_ IHm]. pose proof (Hwv m Hm) as Hwm.
    pose proof (wf_arity m Hwm) as Ham. pose proof (wf_values m Hwm) as Hwmv.
    unfold arity_ok in Ham. rewrite Em in Ham. unfold fused.
    destruct (e_values m) as [|m0 [|m1 r]] eqn:Emv; cbn [length] in Ham; try lia.
    inversion IHm as [|? ? I0 IHm']; subst. inversion IHm' as [|? ? I1 _]; subst.
    inversion Hwmv as [|? ? W0 Hwmv']; subst. inversion Hwmv' as [|? ? W1 _]; subst.
    destruct (I0 W0) as [a [Ha Ra]]. destruct (I1 W1) as [b [Hb Rb]].
    destruct (proj1 (IH v Hv) (Hwv v Hv)) as [cc [Hc Rc]].
    rewrite Ha. cbn [bind]. rewrite Hb. cbn [bind]. rewrite Hc. cbn [bind].
    eexists. split; [reflexivity|].
    exact (refines_fused e m v m0 m1 r a b cc a b Ea Hm Hv Hmv Em Emv Ra Rb Rc eq_refl eq_refl). }
  destruct (is_mul (e_op v0)) eqn:E0; [apply Hfuse; [left; eexists; exact Ev | exact E0]|].
  destruct (is_mul (e_op v1)) eqn:E1; [apply Hfuse; [right; eexists; exact Ev | exact E1]|].
  exact Hdone.
Qed.

(* ---------- execution of generated code ---------- *)
Definition key (n : node) : ntype * nat * bool := (n_ty n, n_id n, n_prime n).
Section Run.
  Variable rho : node -> F3G.
  (* temporaries and expressions are read from the store, where they must have been written; anything
     else is given *)
  Definition rd (s : ntype * nat * bool -> option F3G) (n : node) : option F3G :=
    match n_ty n with Ntmp | Nexp => s (key n) | _ => Some (rho n) end.
  Fixpoint rds (s : ntype * nat * bool -> option F3G) (l : list node) : option (list F3G) :=
    match l with
    | [] => Some []
    | n :: r => match rd s n, rds s r with Some v, Some vs => Some (v :: vs) | _, _ => None end
    end.
  Definition key_eqb (a b : ntype * nat * bool) : bool :=
    ntype_eqb (fst (fst a)) (fst (fst b)) && (snd (fst a) =? snd (fst b)) && Bool.eqb (snd a) (snd b).
  Definition upd (s : ntype * nat * bool -> option F3G) k v : ntype * nat * bool -> option F3G := fun x => if key_eqb x k then Some v else s x.
  Definition apply_op (o : cop) (vs : list F3G) : option F3G :=
    match o, vs with
    | CAdd, a :: b :: _ => Some (e_add a b)
    | CSub, a :: b :: _ => Some (e_sub a b)
    | CMul, a :: b :: _ => Some (e_mul a b)
    | CMuladd, a :: b :: c :: _ => Some (e_add (e_mul a b) c)
    | CCopy, a :: _ => Some a
    | _, _ => None
    end.
  Definition exec_op (s : ntype * nat * bool -> option F3G) (o : cop) (src : list node) : option F3G :=
    match rds s src with Some vs => apply_op o vs | None => None end.
  Fixpoint run (s : ntype * nat * bool -> option F3G) (l : list instr) : option (ntype * nat * bool -> option F3G) :=
    match l with
    | [] => Some s
    | i :: r => match exec_op s (i_op i) (i_src i) with
                | Some v => run (upd s (key (i_dest i)) v) r
                | None => None
                end
    end.
  Lemma run_app l r s : run s (l ++ r) = match run s l with Some s' => run s' r | None => None end.
  Proof.
    revert s. induction l as [|i l IH]; intros s; cbn [app run]; [reflexivity|].
    destruct (exec_op _ _ _); [apply IH | reflexivity].
  Qed.
  Lemma key_eqb_spec a b : reflect (a = b) (key_eqb a b).
  Proof.
    destruct a as [[t i] p], b as [[t' i'] p']. unfold key_eqb. cbn [fst snd].
    assert (Ht : reflect (t = t') (ntype_eqb t t')) by (destruct t, t'; constructor; congruence).
    destruct Ht as [->|Ht]; cbn [andb]; [|constructor; congruence].
    destruct (Nat.eqb_spec i i') as [->|Hi]; cbn [andb]; [|constructor; congruence].
    destruct (Bool.eqb_spec p p') as [->|Hp]; constructor; congruence.
  Qed.
  Lemma upd_same s k v : upd s k v k = Some v.
  Proof. unfold upd. destruct (key_eqb_spec k k); congruence. Qed.
  Lemma upd_other s k v x : x <> k -> upd s k v x = s x.
  Proof. intros H. unfold upd. destruct (key_eqb_spec x k); congruence. Qed.
End Run.

Section Gen.
  Variables (tbl : list expr) (rho : node -> F3G).
  Hypothesis zero : rho (N_new Nnumber 0 (Some 0%Z) false) = e_ZERO.
  Local Notation st := (ntype * nat * bool -> option F3G).
  Local Notation Den := (den tbl rho).
  Local Notation Run := (run rho).
  Local Notation Rd := (rd rho).

  Definition tmpk (j : nat) : ntype * nat * bool := (Ntmp, j, false).
  (* the store holds the values of the expressions listed *)
  Definition good (l : list (bool * nat)) (s : st) : Prop :=
    forall pr i, In (pr, i) l -> exists e v, nth_error tbl i = Some e /\ s (Nexp, i, pr) = Some v /\ Den pr e v.
  Definition in_window (a b : nat) (n : node) : Prop := n_ty n = Ntmp -> exists j, key n = tmpk j /\ a <= j < b.

  Definition evals (p : bool) (e : expr) (c : ccontext) (r : node) (c' : ccontext) : Prop :=
    exists new, cc_code c' = cc_code c ++ new /\ cc_tmp c <= cc_tmp c' /\ in_window (cc_tmp c) (cc_tmp c') r /\
      (n_ty r = Ntmp -> cc_tmp c < cc_tmp c' /\ exists body op src, new = body ++ [mkI op r src]) /\
      forall s, good (exp_refs p e) s -> exists s', Run s new = Some s' /\
        (forall x, (forall j, cc_tmp c <= j < cc_tmp c' -> x <> tmpk j) -> s' x = s x) /\
        exists v, Rd s' r = Some v /\ Den p e v.
  Definition evals_l (p : bool) (l : list expr) (c : ccontext) (rs : list node) (c' : ccontext) : Prop :=
    exists new, cc_code c' = cc_code c ++ new /\ cc_tmp c <= cc_tmp c' /\ Forall (in_window (cc_tmp c) (cc_tmp c')) rs /\
      length rs = length l /\
      forall s, good (exps_refs p l) s -> exists s', Run s new = Some s' /\
        (forall x, (forall j, cc_tmp c <= j < cc_tmp c' -> x <> tmpk j) -> s' x = s x) /\
        Forall2 (fun e r => exists v, Rd s' r = Some v /\ Den p e v) l rs.

  Lemma good_incl l m s : incl l m -> good m s -> good l s.
  Proof. intros Hi Hg pr i Hin. exact (Hg pr i (Hi _ Hin)). Qed.
  Lemma good_ext l s s' : (forall pr i, In (pr, i) l -> s' (Nexp, i, pr) = s (Nexp, i, pr)) -> good l s -> good l s'.
  Proof. intros He Hg pr i Hin. rewrite (He _ _ Hin). exact (Hg pr i Hin). Qed.

  Lemma rd_keep s s' n a b : (forall x, (forall j, a <= j < b -> x <> tmpk j) -> s' x = s x) ->
    (n_ty n = Ntmp -> exists j, key n = tmpk j /\ (j < a \/ b <= j)) -> Rd s' n = Rd s n.
  Proof.
    intros H Hn. unfold rd. destruct (n_ty n) eqn:E; try reflexivity.
    - apply H. intros j Hj. destruct (Hn eq_refl) as [j' [-> Hj']]. unfold tmpk. intros C. injection C as C. lia.
    - apply H. intros j Hj. unfold key, tmpk. rewrite E. discriminate.
  Qed.

  (* emitting one operation on evaluated operands *)
  Lemma emit_ok p e c c1 op srcs rs :
    evals_l p (e_values e) c rs c1 ->
    (forall s, Forall2 (fun x r => exists v, Rd s r = Some v /\ Den p x v) (e_values e) rs ->
       exists v, exec_op rho s op srcs = Some v /\ Den p e v) ->
    incl (exps_refs p (e_values e)) (exp_refs p e) ->
    evals p e c (fst (emit c1 op srcs)) (snd (emit c1 op srcs)).
  Proof.
    intros [new [H1 [H2 [H3 [_ H4]]]]] Hop Hi. unfold emit. cbn [fst snd].
    exists (new ++ [mkI op (N_new Ntmp (cc_tmp c1) None false) srcs]). cbn [cc_code cc_tmp].
    split; [rewrite H1; now rewrite <- app_assoc|]. split; [lia|].
    split; [intros _; exists (cc_tmp c1); split; [reflexivity | lia]|].
    split; [intros _; split; [lia | exists new, op, srcs; reflexivity]|].
    intros s Hg. destruct (H4 s (good_incl _ _ _ Hi Hg)) as [s1 [R1 [F1 D1]]].
    destruct (Hop s1 D1) as [v [Hv HD]].
    exists (upd s1 (tmpk (cc_tmp c1)) v). split; [|split].
    - rewrite run_app, R1. cbn [run i_op i_src i_dest]. rewrite Hv. reflexivity.
    - intros x Hx. rewrite upd_other by (apply Hx; lia). apply F1. intros j Hj. apply Hx. lia.
    - unfold rd. cbn [N_new n_ty]. change (key (N_new Ntmp (cc_tmp c1) None false)) with (tmpk (cc_tmp c1)).
      rewrite upd_same. exists v. split; [reflexivity | exact HD].
  Qed.
  Lemma leaf_ok p e c c1 rs n : evals_l p (e_values e) c rs c1 -> n_ty n <> Ntmp ->
    incl (exps_refs p (e_values e)) (exp_refs p e) ->
    (forall s, good (exp_refs p e) s -> exists v, Rd s n = Some v /\ Den p e v) -> evals p e c n c1.
  Proof.
    intros [new [H1 [H2 [H3 [_ H4]]]]] Hn Hi HD. exists new. split; [exact H1|]. split; [exact H2|].
    split; [intros C; contradiction|]. split; [intros C; contradiction|].
    intros s Hg. destruct (H4 s (good_incl _ _ _ Hi Hg)) as [s1 [R1 [F1 D1]]]. exists s1. split; [exact R1|]. split; [exact F1|].
    apply HD. eapply good_ext; [|exact Hg]. intros pr i _. apply F1. intros j _. unfold tmpk. discriminate.
  Qed.

  Lemma refs_values p e : incl (exps_refs p (e_values e)) (exp_refs p e).
  Proof. rewrite (exp_refs_eq p e). apply incl_appr, incl_refl. Qed.

  Lemma rds_total s rs : forall l p, Forall2 (fun x r => exists v, Rd s r = Some v /\ Den p x v) l rs -> exists vs, rds rho s rs = Some vs.
  Proof.
    induction rs as [|r rs IH]; intros l p H; [exists []; reflexivity|].
    inversion H as [|x ? l' ? [v [Hv _]] H']; subst. destruct (IH _ _ H') as [vs Hvs]. exists (v :: vs). cbn [rds]. now rewrite Hv, Hvs.
  Qed.
  Lemma single_ok p e c rs c1 r c' : arity_ok e -> evals_l p (e_values e) c rs c1 ->
    eval_single_op p c1 e rs = Ok (r, c') -> evals p e c r c'.
  Proof.
    intros Ha HL H. pose proof (refs_values p e) as Hi. unfold arity_ok in Ha. unfold eval_single_op in H.
    assert (Hemit : forall op srcs, Ok (emit c1 op srcs) = Ok (r, c') ->
      (forall s, Forall2 (fun x r => exists v, Rd s r = Some v /\ Den p x v) (e_values e) rs -> exists v, exec_op rho s op srcs = Some v /\ Den p e v) ->
      evals p e c r c').
    { intros op srcs He Hv. pose proof (emit_ok p e c c1 op srcs rs HL Hv Hi) as Hk.
      assert (Hr : emit c1 op srcs = (r, c')) by congruence. rewrite Hr in Hk. exact Hk. }
    destruct (e_op e) eqn:Eo; try discriminate H.
    - apply (Hemit _ _ H). intros s HF. destruct (e_values e) as [|a [|b rr]] eqn:Ev; cbn [length] in Ha; try lia.
      inversion HF as [|? ra ? ? [va [Va Da]] HF']; subst. inversion HF' as [|? rb ? rt [vb [Vb Db]] HF'']; subst.
      destruct (rds_total s rt _ _ HF'') as [vt Vt].
      eexists. split; [unfold exec_op; cbn [rds]; rewrite Va, Vb, Vt; reflexivity|]. eapply D_add; eassumption.
    - apply (Hemit _ _ H). intros s HF. destruct (e_values e) as [|a [|b rr]] eqn:Ev; cbn [length] in Ha; try lia.
      inversion HF as [|? ra ? ? [va [Va Da]] HF']; subst. inversion HF' as [|? rb ? rt [vb [Vb Db]] HF'']; subst.
      destruct (rds_total s rt _ _ HF'') as [vt Vt].
      eexists. split; [unfold exec_op; cbn [rds]; rewrite Va, Vb, Vt; reflexivity|]. eapply D_sub; eassumption.
    - apply (Hemit _ _ H). intros s HF. destruct (e_values e) as [|a [|b rr]] eqn:Ev; cbn [length] in Ha; try lia.
      inversion HF as [|? ra ? ? [va [Va Da]] HF']; subst. inversion HF' as [|? rb ? rt [vb [Vb Db]] HF'']; subst.
      destruct (rds_total s rt _ _ HF'') as [vt Vt].
      eexists. split; [unfold exec_op; cbn [rds]; rewrite Va, Vb, Vt; reflexivity|]. eapply D_mul; eassumption.
    - apply (Hemit _ _ H). intros s HF. destruct (e_values e) as [|a [|b [|d rr]]] eqn:Ev; cbn [length] in Ha; try lia.
      inversion HF as [|? ra ? ? [va [Va Da]] HF']; subst. inversion HF' as [|? rb ? ? [vb [Vb Db]] HF'']; subst.
      inversion HF'' as [|? rc ? rt [vc [Vc Dc]] HF3]; subst. destruct (rds_total s rt _ _ HF3) as [vt Vt].
      eexists. split; [unfold exec_op; cbn [rds]; rewrite Va, Vb, Vc, Vt; reflexivity|]. eapply D_muladd; eassumption.
    - destruct rs as [|a rr]; [discriminate H|]. cbn [hd_error unwrap bind] in H.
      destruct (e_const e) as [k|] eqn:Ek; [|discriminate H]. cbn [unwrap bind] in H.
      apply (Hemit _ _ H). intros s HF. inversion HF as [|x ? ? ? [va [Va Da]] _ Hx]; subst.
      eexists. split; [unfold exec_op; cbn [rds]; rewrite Va; reflexivity|]. eapply D_addc; [exact Eo | symmetry; exact Hx | exact Ek | exact Da].
    - destruct rs as [|a rr]; [discriminate H|]. cbn [hd_error unwrap bind] in H.
      destruct (e_const e) as [k|] eqn:Ek; [|discriminate H]. cbn [unwrap bind] in H.
      apply (Hemit _ _ H). intros s HF. inversion HF as [|x ? ? ? [va [Va Da]] _ Hx]; subst.
      eexists. split; [unfold exec_op; cbn [rds]; rewrite Va; reflexivity|]. eapply D_mulc; [exact Eo | symmetry; exact Hx | exact Ek | exact Da].
    - destruct rs as [|a rr]; [discriminate H|]. cbn [hd_error unwrap bind] in H.
      apply (Hemit _ _ H). intros s HF. inversion HF as [|x ? ? ? [va [Va Da]] _ Hx]; subst.
      eexists. split; [unfold exec_op; cbn [rds]; rewrite Va; cbn [rd N_new n_ty apply_op]; rewrite zero, e_sub_zero; reflexivity|].
      eapply D_neg; [exact Eo | symmetry; exact Hx | exact Da].
    - unfold shifted_ref in H. destruct (e_next e && p) eqn:En; [discriminate H|]. destruct (e_id e) as [i|] eqn:Ei; [|discriminate H].
      cbn [unwrap bind] in H. injection H as <- <-. apply (leaf_ok p e c c1 rs); [exact HL | discriminate | exact Hi|].
      intros s _. eexists. split; [reflexivity|]. apply D_cm; assumption.
    - unfold shifted_ref in H. destruct (e_next e && p) eqn:En; [discriminate H|]. destruct (e_id e) as [i|] eqn:Ei; [|discriminate H].
      cbn [unwrap bind] in H. injection H as <- <-. apply (leaf_ok p e c c1 rs); [exact HL | discriminate | exact Hi|].
      intros s _. eexists. split; [reflexivity|]. apply D_const; assumption.
    - unfold shifted_ref in H. destruct (e_next e && p) eqn:En; [discriminate H|]. destruct (e_id e) as [i|] eqn:Ei; [|discriminate H].
      cbn [unwrap bind] in H. injection H as <- <-. apply (leaf_ok p e c c1 rs); [exact HL | discriminate | exact Hi|].
      intros s Hg. destruct (Hg (e_next e || p) i) as [e' [v [He' [Hv HD]]]].
      { rewrite exp_refs_eq, Eo, Ei. now left. }
      exists v. split; [exact Hv|]. eapply D_exp; eassumption.
    - unfold shifted_ref in H. destruct (e_next e && p) eqn:En; [discriminate H|]. destruct (e_id e) as [i|] eqn:Ei; [|discriminate H].
      cbn [unwrap bind] in H. injection H as <- <-. apply (leaf_ok p e c c1 rs); [exact HL | discriminate | exact Hi|].
      intros s _. eexists. split; [reflexivity|]. apply D_q; assumption.
    - injection H as <- <-. apply (leaf_ok p e c c1 rs); [exact HL | discriminate | exact Hi|].
      intros s _. eexists. split; [reflexivity|]. apply D_number; assumption.
    - unfold plain_ref in H. destruct (e_id e) as [i|] eqn:Ei; [|discriminate H]. cbn [unwrap bind] in H. injection H as <- <-.
      apply (leaf_ok p e c c1 rs); [exact HL | discriminate | exact Hi|]. intros s _. eexists. split; [reflexivity|]. apply D_public; assumption.
    - unfold plain_ref in H. destruct (e_id e) as [i|] eqn:Ei; [|discriminate H]. cbn [unwrap bind] in H. injection H as <- <-.
      apply (leaf_ok p e c c1 rs); [exact HL | discriminate | exact Hi|]. intros s _. eexists. split; [reflexivity|]. apply D_challenge; assumption.
    - unfold plain_ref in H. destruct (e_id e) as [i|] eqn:Ei; [|discriminate H]. cbn [unwrap bind] in H. injection H as <- <-.
      apply (leaf_ok p e c c1 rs); [exact HL | discriminate | exact Hi|]. intros s _. eexists. split; [reflexivity|]. apply D_eval; assumption.
    - injection H as <- <-. apply (leaf_ok p e c c1 rs); [exact HL | discriminate | exact Hi|]. intros s _. eexists. split; [reflexivity|]. apply D_xdiv; assumption.
    - injection H as <- <-. apply (leaf_ok p e c c1 rs); [exact HL | discriminate | exact Hi|]. intros s _. eexists. split; [reflexivity|]. apply D_xdivw; assumption.
    - injection H as <- <-. apply (leaf_ok p e c c1 rs); [exact HL | discriminate | exact Hi|]. intros s _. eexists. split; [reflexivity|]. apply D_x; assumption.
  Qed.

  Lemma evals_nil p c : evals_l p [] c [] c.
  Proof.
    exists []. split; [now rewrite app_nil_r|]. split; [lia|]. split; [constructor|]. split; [reflexivity|].
    intros s _. exists s. split; [reflexivity|]. split; [reflexivity | constructor].
  Qed.
  Lemma evals_cons p x l c r c1 rs c2 : evals p x c r c1 -> evals_l p l c1 rs c2 -> evals_l p (x :: l) c (r :: rs) c2.
  Proof.
    intros [n1 [A1 [A2 [A3 [_ A4]]]]] [n2 [B1 [B2 [B3 [B5 B4]]]]]. exists (n1 ++ n2).
    split; [rewrite B1, A1; now rewrite app_assoc|]. split; [lia|].
    split.
    { constructor.
      - intros Ht. destruct (A3 Ht) as [j [Hj1 Hj2]]. exists j. split; [exact Hj1 | lia].
      - eapply Forall_impl; [|exact B3]. intros n Hn Ht. destruct (Hn Ht) as [j [Hj1 Hj2]]. exists j. split; [exact Hj1 | lia]. }
    split; [cbn [length]; lia|].
    intros s Hg. cbn [exps_refs] in Hg.
    destruct (A4 s) as [s1 [R1 [F1 D1]]]; [eapply good_incl; [|exact Hg]; apply incl_appl, incl_refl|].
    destruct (B4 s1) as [s2 [R2 [F2 D2]]].
    { eapply good_ext; [|eapply good_incl; [|exact Hg]; apply incl_appr, incl_refl].
      intros pr i _. apply F1. intros j _. discriminate. }
    exists s2. split; [now rewrite run_app, R1|]. split.
    - intros y Hy. rewrite F2 by (intros j Hj; apply Hy; lia). apply F1. intros j Hj. apply Hy. lia.
    - constructor; [|exact D2]. rewrite (rd_keep s1 s2 r (cc_tmp c1) (cc_tmp c2) F2); [exact D1|].
      intros Ht. destruct (A3 Ht) as [j [Hj1 Hj2]]. exists j. split; [exact Hj1 | lia].
  Qed.

  Lemma post_ok p e : wf_e e -> forall c r c', post _ _ (eval_single_op p) e c = Ok (r, c') -> evals p e c r c'.
  Proof.
    induction e as [op id next value values k kp IH] using expr_ind'. intros Hw c r c' H.
    set (e := mkE op id next value values k kp) in *. change values with (e_values e) in IH.
    rewrite post_eq in H.
    destruct (posts _ _ (eval_single_op p) (e_values e) c) as [[rs c1]| | |] eqn:Ep; try discriminate H. cbn [bind fst snd] in H.
    apply (single_ok p e c rs c1 r c' (wf_arity e Hw)); [|exact H].
    pose proof (wf_values e Hw) as Hwv. clear H. clearbody e. revert c rs c1 Ep.
    induction IH as [|x l Hx _ IHl]; intros c rs c1 Ep; cbn [posts] in Ep.
    - injection Ep as <- <-. apply evals_nil.
    - destruct (post _ _ (eval_single_op p) x c) as [[r1 c2]| | |] eqn:E1; try discriminate Ep. cbn [bind fst snd] in Ep.
      destruct (posts _ _ (eval_single_op p) l c2) as [[rs' c3]| | |] eqn:E2; try discriminate Ep. cbn [bind fst snd] in Ep.
      injection Ep as <- <-. inversion Hwv; subst. eapply evals_cons; [apply Hx; eassumption | apply IHl; assumption].
  Qed.

  Definition extends (R : ntype * nat * bool -> Prop) (c c' : context) : Prop :=
    exists ext, linear_code c' = linear_code c ++ ext /\ incl (x_calc c) (x_calc c') /\
      forall s, good (x_calc c) s -> exists s', Run s ext = Some s' /\ good (x_calc c') s' /\
        forall x, (forall j, x <> tmpk j) -> (forall pr i, x = (Nexp, i, pr) -> In (pr, i) (x_calc c) \/ ~ In (pr, i) (x_calc c')) ->
          ~ R x -> s' x = s x.
  Definition none (x : ntype * nat * bool) : Prop := False.
  Lemma extends_refl c : extends none c c.
  Proof.
    exists []. split; [now rewrite app_nil_r|]. split; [apply incl_refl|].
    intros s Hg. exists s. split; [reflexivity|]. split; [exact Hg | reflexivity].
  Qed.
  Lemma extends_trans R c c1 c2 : extends none c c1 -> extends R c1 c2 -> extends R c c2.
  Proof.
    intros [e1 [A1 [A2 A3]]] [e2 [B1 [B2 B3]]]. exists (e1 ++ e2). split; [rewrite B1, A1; now rewrite app_assoc|].
    split; [eapply incl_tran; eassumption|].
    intros s Hg. destruct (A3 s Hg) as [s1 [R1 [G1 F1]]]. destruct (B3 s1 G1) as [s2 [R2 [G2 F2]]].
    exists s2. split; [now rewrite run_app, R1|]. split; [exact G2|].
    intros x Hx Hk HR. rewrite F2; [apply F1; [exact Hx | | intros []] | exact Hx | | exact HR].
    - intros pr i ->. destruct (Hk pr i eq_refl) as [H|H]; [now left | right; intros C; apply H, B2, C].
    - intros pr i ->. destruct (Hk pr i eq_refl) as [H|H]; [left; apply A2, H | now right].
  Qed.

  Lemma deps_ok gen p : (forall c i pr c', gen c i pr = Ok c' -> extends none c c' /\ In (pr, i) (x_calc c')) ->
    forall e c c', calculate_deps gen p e c = Ok c' -> extends none c c' /\ incl (exp_refs p e) (x_calc c').
  Proof.
    intros Hgen. induction e as [op id next value values k kp IH] using expr_ind'. intros c c' H.
    cbn [calculate_deps] in H.
    destruct (match op with OExp => do i <- unwrap id; (if p && next then Err else gen c i (p || next)) | _ => Ok c end) as [c1| | |] eqn:E1; try discriminate H.
    cbn [bind] in H.
    assert (H1 : extends none c c1 /\ incl (match op, id with OExp, Some i => [(next || p, i)] | _, _ => [] end) (x_calc c1)).
    { destruct op; try (injection E1 as <-; split; [apply extends_refl | intros x []]).
      destruct id as [i|]; [|discriminate E1]. cbn [unwrap bind] in E1. destruct (p && next); [discriminate E1|].
      apply Hgen in E1 as [X Y]. split; [exact X|]. intros x [<-|[]]. now rewrite orb_comm. }
    destruct H1 as [X1 Y1].
    assert (H2 : extends none c1 c' /\ incl (exps_refs p values) (x_calc c')).
    { clear E1 X1 Y1. revert c1 H. induction IH as [|x l Hx _ IHl]; intros c1 H.
      - injection H as <-. split; [apply extends_refl | intros x []].
      - destruct (calculate_deps gen p x c1) as [c2| | |] eqn:E2; try discriminate H. cbn [bind] in H.
        destruct (Hx _ _ E2) as [A B]. destruct (IHl _ H) as [C D]. split; [eapply extends_trans; eassumption|].
        cbn [exps_refs]. apply incl_app; [|exact D]. destruct C as [? [_ [C _]]]. eapply incl_tran; eassumption. }
    destruct H2 as [X2 Y2]. split; [eapply extends_trans; eassumption|].
    rewrite exp_refs_eq. cbn [e_op e_id e_next e_values]. apply incl_app; [|exact Y2].
    destruct X2 as [? [_ [C _]]]. eapply incl_tran; eassumption.
  Qed.

  Lemma key_in_spec k l : key_in k l = true <-> In k l.
  Proof.
    unfold key_in. rewrite existsb_exists. destruct k as [p i]. cbn [fst snd]. split.
    - intros [[p' i'] [H1 H2]]. cbn [fst snd] in H2. apply andb_prop in H2 as [A B].
      apply eqb_prop in A. apply Nat.eqb_eq in B. now subst.
    - intros H. exists (p, i). split; [exact H|]. cbn [fst snd]. now rewrite eqb_reflx, Nat.eqb_refl.
  Qed.

  Lemma block_ok p e e' t i r cc l t' : nth_error tbl i = Some e -> refines e e' \/ e' = e -> wf_e e' ->
    post _ _ (eval_single_op p) e' (mkCC t []) = Ok (r, cc) ->
    match n_ty r with
    | Ntmp => do l <- set_last_dest (cc_code cc) (N_new Nexp i None p); Ok (l, cc_tmp cc - 1)
    | _ => Ok (cc_code cc ++ [mkI CCopy (N_new Nexp i None p) [r]], cc_tmp cc)
    end = Ok (l, t') ->
    forall s, good (exp_refs p e) s -> exists s' v, Run s l = Some s' /\ Den p e v /\ s' (Nexp, i, p) = Some v /\
      forall x, (forall j, x <> tmpk j) -> x <> (Nexp, i, p) -> s' x = s x.
  Proof.
    intros Hn Hr Hw Hp Hl s Hg.
    assert (He : incl (exp_refs p e') (exp_refs p e) /\ forall v, Den p e' v -> Den p e v).
    { destruct Hr as [[_ [A [_ B]]]| ->]; [split; [apply A | intros v; apply B] | split; [apply incl_refl | auto]]. }
    destruct He as [Hi HD].
    destruct (post_ok p e' Hw _ _ _ Hp) as [new [E1 [E2 [_ [E4 E5]]]]]. cbn [cc_code cc_tmp app] in *.
    destruct (E5 s (good_incl _ _ _ Hi Hg)) as [s1 [R1 [F1 [v1 [V1 D1]]]]].
    assert (Hcopy : l = cc_code cc ++ [mkI CCopy (N_new Nexp i None p) [r]] -> exists s' v, Run s l = Some s' /\ Den p e v /\ s' (Nexp, i, p) = Some v /\
      forall x, (forall j, x <> tmpk j) -> x <> (Nexp, i, p) -> s' x = s x).
    { intros ->. exists (upd s1 (Nexp, i, p) v1), v1. rewrite E1, run_app, R1. cbn [run i_op i_src i_dest]. unfold exec_op. cbn [rds]. rewrite V1. split; [reflexivity|].
      split; [apply HD, D1|]. split; [apply upd_same|]. intros x Hx Hk. rewrite upd_other by exact Hk. apply F1. intros j _. apply Hx. }
    destruct (n_ty r) eqn:Et; try (injection Hl as <- _; apply Hcopy; reflexivity).
    clear Hcopy. destruct (E4 eq_refl) as [_ [body [op [src Hb]]]].
    unfold set_last_dest in Hl. rewrite E1, Hb, rev_app_distr in Hl. cbn [rev app i_op i_src bind] in Hl.
    injection Hl as <- _. rewrite rev_involutive.
    rewrite Hb, run_app in R1. destruct (Run s body) as [sb|] eqn:Rb; [|discriminate R1].
    cbn [run i_op i_src i_dest] in R1. destruct (exec_op rho sb op src) as [v|] eqn:Ev; [|discriminate R1].
    injection R1 as <-. exists (upd sb (Nexp, i, p) v), v.
    split; [rewrite run_app, Rb; cbn [run i_op i_src i_dest]; rewrite Ev; reflexivity|].
    split.
    - apply HD. unfold rd in V1. rewrite Et, upd_same in V1. injection V1 as ->. exact D1.
    - split; [apply upd_same|]. intros x Hx Hk. rewrite upd_other by exact Hk.
      rewrite <- (F1 x) by (intros j _; apply Hx). symmetry. apply upd_other. unfold key. rewrite Et. intros ->.
      (* the key of a temporary is never shifted *)
      destruct (post_ok p e' Hw _ _ _ Hp) as [? [_ [_ [Hwin _]]]]. destruct (Hwin Et) as [j [Hj _]].
      apply (Hx j). rewrite <- Hj. unfold key. now rewrite Et.
  Qed.

  Hypothesis tbl_wf : Forall wf_e tbl.

  Definition res_key (r : option (ntype * nat)) (p : bool) (x : ntype * nat * bool) : Prop :=
    match r with Some (ty, rid) => x = (ty, rid, p) | None => False end.

  Theorem codegen_ok fuel : forall r m c i p c',
    pil_code_gen fuel tbl r m c i p = Ok c' ->
    (r = None \/ exists ty rid, r = Some (ty, rid) /\ ty <> Ntmp /\ ty <> Nexp /\ ~ In (p, i) (x_calc c)) ->
    In (p, i) (x_calc c') /\ incl (x_calc c) (x_calc c') /\
    exists ext, linear_code c' = linear_code c ++ ext /\
      forall s, good (x_calc c) s -> exists s', Run s ext = Some s' /\ good (x_calc c') s' /\
        (forall x, (forall j, x <> tmpk j) -> (forall pr i, x = (Nexp, i, pr) -> In (pr, i) (x_calc c) \/ ~ In (pr, i) (x_calc c')) ->
          ~ res_key r p x -> s' x = s x) /\
        (forall ty rid, r = Some (ty, rid) -> s' (ty, rid, p) = s' (Nexp, i, p)).
  Proof.
    induction fuel as [|fuel IH]; intros r m c i p c' H Hr; [discriminate H|].
    cbn [pil_code_gen] in H.
    destruct (key_in (p, i) (x_calc c)) eqn:Ek.
    { apply key_in_spec in Ek. destruct Hr as [->|[ty [rid [-> [_ [_ C]]]]]]; [|contradiction].
      injection H as <-. split; [exact Ek|]. split; [apply incl_refl|].
      exists []. split; [now rewrite app_nil_r|]. intros s Hg. exists s. split; [reflexivity|]. split; [exact Hg|].
      split; [reflexivity | intros ? ? C; discriminate C]. }
    assert (Hnk : ~ In (p, i) (x_calc c)) by (intros C; apply key_in_spec in C; congruence).
    destruct (vget tbl i) as [e| | |] eqn:Ee; try discriminate H. cbn [bind] in H. apply vget_inv in Ee.
    destruct (calculate_deps _ p e c) as [c1| | |] eqn:Ed; try discriminate H. cbn [bind] in H.
    assert (Hgen : forall d j pr d', pil_code_gen fuel tbl None false d j pr = Ok d' -> extends none d d' /\ In (pr, j) (x_calc d')).
    { intros d j pr d' Hd. destruct (IH None false d j pr d' Hd (or_introl eq_refl)) as [A [B [ext [C D]]]].
      split; [|exact A]. exists ext. split; [exact C|]. split; [exact B|]. intros s Hg. destruct (D s Hg) as [s' [D1 [D2 [D3 _]]]].
      exists s'. split; [exact D1|]. split; [exact D2|]. intros x Hx Hk HR. apply D3; [exact Hx | exact Hk | exact HR]. }
    destruct (deps_ok _ p Hgen _ _ _ Ed) as [X1 Y1]. clear Hgen.
    destruct (if m then find_muladd e else Ok e) as [e'| | |] eqn:Em; try discriminate H. cbn [bind] in H.
    assert (Hwe : wf_e e). { rewrite Forall_forall in tbl_wf. apply tbl_wf. eapply nth_error_In, Ee. }
    assert (He' : (refines e e' \/ e' = e) /\ wf_e e').
    { destruct m; [|injection Em as <-; split; [now right | exact Hwe]].
      destruct (find_muladd_ok e Hwe) as [e2 [A B]]. rewrite A in Em. injection Em as ->. split; [now left | apply B]. }
    destruct He' as [He' Hwe'].
    unfold eval_exp in H. destruct (is_nop e'); [discriminate H|]. rewrite traversal_post in H.
    destruct (post _ _ (eval_single_op p) e' (mkCC (x_tmp c1) [])) as [[ret cc]| | |] eqn:Ep; try discriminate H. cbn [bind] in H.
    match type of H with bind ?b _ = _ => destruct b as [[l t]| | |] eqn:El; try discriminate H end. cbn [bind] in H.
    pose proof (block_ok p e e' (x_tmp c1) i ret cc l t Ee He' Hwe' Ep El) as Hblock.
    assert (Hres : exists l', (r = None /\ l' = l \/ exists ty rid, r = Some (ty, rid) /\ l' = l ++ [mkI CCopy (N_new ty rid None p) [N_new Nexp i None p]]) /\
      c' = mkCtx (Nat.max (x_tmp c1) t) (x_code c1 ++ [mkC i p l']) ((p, i) :: x_calc c1)).
    { destruct r as [[ty rid]|].
      - destruct p; [discriminate H|]. cbn [bind] in H. injection H as <-. eexists. split; [right; exists ty, rid; split; reflexivity | reflexivity].
      - cbn [bind] in H. injection H as <-. exists l. split; [left; split; reflexivity | reflexivity]. }
    destruct Hres as [l' [Hl' ->]]. cbn [x_calc]. split; [now left|].
    destruct X1 as [e1 [A1 [A2 A3]]]. split; [intros x Hx; right; apply A2, Hx|].
    exists (e1 ++ l'). split.
    { unfold linear_code. cbn [x_code]. rewrite map_app, concat_app. fold (linear_code c1). rewrite A1. cbn. now rewrite app_nil_r, app_assoc. }
    intros s Hg. destruct (A3 s Hg) as [s1 [R1 [G1 F1]]].
    destruct (Hblock s1 (good_incl _ _ _ Y1 G1)) as [s2 [v [R2 [D2 [V2 F2]]]]].
    assert (G2 : good ((p, i) :: x_calc c1) s2).
    { intros pr j Hin. destruct (key_eqb_spec (Nexp, j, pr) (Nexp, i, p)) as [E|E].
      - injection E as -> ->. exists e, v. split; [exact Ee|]. split; [exact V2 | exact D2].
      - destruct Hin as [Hin|Hin]; [injection Hin as -> ->; now destruct E|].
        destruct (G1 pr j Hin) as [e0 [v0 [A [B C]]]]. exists e0, v0. split; [exact A|]. split; [|exact C].
        rewrite F2; [exact B | intros k; discriminate | exact E]. }
    assert (Fall : forall x, (forall j, x <> tmpk j) ->
       (forall pr j, x = (Nexp, j, pr) -> In (pr, j) (x_calc c) \/ ~ In (pr, j) ((p, i) :: x_calc c1)) -> s2 x = s x).
    { intros x Hx Hk. rewrite F2; [apply F1; [exact Hx | | intros []] | exact Hx|].
      - intros pr j ->. destruct (Hk pr j eq_refl) as [Hj|Hj]; [now left | right; intros C; apply Hj; now right].
      - intros ->. destruct (Hk p i eq_refl) as [Hj|Hj]; [contradiction | apply Hj; now left]. }
    destruct Hl' as [[-> ->]|[ty [rid [-> ->]]]].
    - exists s2. split; [now rewrite run_app, R1|]. split; [exact G2|]. split; [|intros ? ? C; discriminate C].
      intros x Hx Hk _. apply Fall; assumption.
    - destruct Hr as [C|[ty' [rid' [E [Ht1 [Ht2 _]]]]]]; [discriminate C|]. injection E as <- <-.
      exists (upd s2 (ty, rid, p) v).
      split.
      { rewrite run_app, R1, run_app, R2. cbn [run i_op i_src i_dest]. unfold exec_op. cbn [rds].
        unfold rd, key. cbn [N_new n_ty n_id n_prime]. rewrite V2. reflexivity. }
      split; [|split].
      + eapply good_ext; [|exact G2]. intros pr j _. apply upd_other. congruence.
      + intros x Hx Hk HR. cbn [res_key] in HR. rewrite upd_other by exact HR. apply Fall; assumption.
      + intros ty0 rid0 E. injection E as <- <-. rewrite upd_same, upd_other by congruence. symmetry. exact V2.
  Qed.
End Gen.

Theorem visits_once e : postorder_traversal (fun log n (_ : list unit) => Ok (tt, log ++ [n])) e [] = Ok (tt, post_nodes e).
Proof. rewrite traversal_post. exact (visits_spec e []). Qed.

Theorem muladd_spec e : wf_e e -> exists e', find_muladd e = Ok e' /\
  forall tbl rho p v, den tbl rho p e v <-> den tbl rho p e' v.
Proof. intros H. destruct (find_muladd_ok e H) as [e' [A [_ [_ [_ B]]]]]. exists e'. split; [exact A | exact B]. Qed.
