(* VerifyQuery against check_query. *)
From Verif Require Import Base NumTheory GlModel GlProof FrField Cubic F3gModel F3gProof PolyModel Roots CodegenModel InterpModel VerifierModel
  HashModel StarkModel UnrollModel UnrollProof UnrollEval VqueryModel.
From Verif Require FriMath FriModel.
From Coq Require Import Lia.
Open Scope nat_scope.
Open Scope res_scope.

(* the number with the bits ys 0, ..., ys (n-1) *)
Fixpoint bitsum (ys : nat -> bool) (n : nat) : nat :=
  match n with O => 0 | S m => bitsum ys m + (if ys m then 2 ^ m else 0) end.

Lemma xacc_val ext ys xacc : vq_xacc ext ys xacc -> 0 < ext -> ext <= 32 -> forall i, i < ext ->
  kconst (xacc i) = kmul (kconst SHIFT) (kpow (kroot ext) (bitsum ys (S i))).
Proof.
  intros (H0 & HS) He Hx. induction i as [|i IH]; intros Hi.
  - rewrite H0. cbn [bitsum]. change (vq_root ext) with (root ext). unfold kroot. destruct (ys 0); cbn [fbit].
    + change (0 + 2 ^ 0)%nat with 1. rewrite (kpow_S _ 0).
      replace (fadd (fmul f1 (fsub (fmul SHIFT (root ext)) SHIFT)) SHIFT) with (fmul SHIFT (root ext)) by ring.
      rewrite kconst_mul. change (kpow (kconst (root ext)) 0) with kone. ring.
    + change (0 + 0)%nat with 0. replace (fadd (fmul f0 (fsub (fmul SHIFT (root ext)) SHIFT)) SHIFT) with SHIFT by ring.
      change (kpow (kconst (root ext)) 0) with kone. ring.
  - rewrite (HS i Hi). change (bitsum ys (S (S i))) with (bitsum ys (S i) + (if ys (S i) then 2 ^ S i else 0)).
    change (vq_root (ext - S i)) with (root (ext - S i)). rewrite kconst_mul, (IH ltac:(lia)), kpow_add. destruct (ys (S i)); cbn [fbit].
    + replace (fadd (fmul f1 (fsub (root (ext - S i)) f1)) f1) with (root (ext - S i)) by ring.
      change (kconst (root (ext - S i))) with (kroot (ext - S i)). pose proof (FriMath.kroot_down ext (S i) ltac:(lia) Hx) as E.
      change (kpow (kroot ext) (2 ^ S i) = kroot (ext - S i)) in E. rewrite <- E. ring.
    + replace (fadd (fmul f0 (fsub (root (ext - S i)) f1)) f1) with f1 by ring.
      change (kpow (kroot ext) 0) with kone. rewrite kconst_1. ring.
Qed.

(* the sections of the layout in order, as starkinfo_map.rs pushes them to cm_2ns and to map_sections *)
Record layout_ok (si : sinfo) (ms : nat -> list nat) (n1 n2 n3 : nat) : Prop := mkLO {
  lo_cm : si_cm_2ns si = ms 1 ++ ms 2 ++ ms 3 ++ ms 4;
  lo_1 : List.length (ms 1) = n1; lo_2 : List.length (ms 2) = n2; lo_3 : List.length (ms 3) = n3;
  lo_sec : forall t p s pos dim, In p (ms t) -> nth_error (si_map si) p = Some (s, pos, dim) ->
    s = match t with 1 => Scm1_2ns | 2 => Scm2_2ns | 3 => Scm3_2ns | _ => Scm4_2ns end }.
(* the sources of the query code: trees as tree_refs gives them, no Z, no literal below -p *)
Definition q_src (si : sinfo) (r : node) : Prop :=
  match n_ty r with
  | Ntree1 | Ntree2 | Ntree3 | Ntree4 => exists r0, n_ty r0 = Ncm /\ tree_ref si r0 = Ok r
  | Nnumber => forall k, n_value r = Some k -> (- GLP <= k)%Z
  | NZ => False
  | _ => True
  end.

Lemma extract_one l pos a v : nth_error l pos = Some a -> extract_val l pos 1 = Ok v -> relv v [a].
Proof.
  intros H. unfold extract_val, vget. rewrite H. cbn [Nat.eqb rmap bind]. intros [= <-]. exact (conj (wf_from a) (val_from a)).
Qed.
Lemma extract_three l pos a b c v : nth_error l pos = Some a -> nth_error l (pos + 1) = Some b -> nth_error l (pos + 2) = Some c ->
  extract_val l pos 3 = Ok v -> relv v [a; b; c].
Proof.
  intros A B C. unfold extract_val. cbn [Nat.eqb]. intros E. destruct (three_b_val _ _ _ E) as (x & y & z & X & Y & Z & W & V).
  rewrite A in X. rewrite B in Y. rewrite C in Z. injection X as <-. injection Y as <-. injection Z as <-. exact (conj W V).
Qed.
Lemma tree_val env pm ms vals t i p s pos dim v : mv_holds env pm ms vals -> 1 <= t <= 4 -> nth_error (ms t) i = Some p ->
  nth_error pm p = Some (s, pos, dim) -> extract_val (vals t) pos dim = Ok v -> relv v (env (TTree t i)).
Proof.
  intros HM Ht Hi Hp HE. specialize (HM t i p s pos dim Ht Hi Hp). destruct dim as [|[|[|[|dim]]]]; try contradiction.
  - destruct HM as (a & Ha & ->). exact (extract_one _ _ _ _ Ha HE).
  - destruct HM as (a & b & c & Ha & Hb & Hc & ->). exact (extract_three _ _ _ _ _ _ Ha Hb Hc HE).
Qed.
Lemma tree_shape si r0 r : n_ty r0 = Ncm -> tree_ref si r0 = Ok r -> exists p s, nth_error (si_cm_2ns si) (n_id r) = Some p /\
  nth_error (si_map si) p = Some (s, n_pos r, n_dim r) /\
  n_ty r = match s with Scm1_2ns => Ntree1 | Scm2_2ns => Ntree2 | Scm3_2ns => Ntree3 | _ => Ntree4 end /\
  match s with Scm1_2ns | Scm2_2ns | Scm3_2ns | Scm4_2ns => True | _ => False end.
Proof.
  intros E. unfold tree_ref. rewrite E. destruct (vget (si_cm_2ns si) (n_id r0)) as [p| | |] eqn:Ep; try discriminate. cbn [bind].
  destruct (vget (si_map si) p) as [[[s pos] dim]| | |] eqn:Eq; try discriminate. cbn [bind]. intros H. exists p, s.
  apply vget_some in Ep. apply vget_some in Eq.
  destruct s; try discriminate; cbn [bind] in H; injection H as <-; cbn [n_id n_pos n_dim n_ty];
    (split; [exact Ep|]; split; [exact Eq|]; split; [reflexivity|exact Logic.I]).
Qed.
(* which section an index falls into *)
Lemma cm_split (ms : nat -> list nat) id p : nth_error (ms 1 ++ ms 2 ++ ms 3 ++ ms 4) id = Some p ->
  exists t i, 1 <= t <= 4 /\ nth_error (ms t) i = Some p /\
    id = i + match t with 1 => 0 | 2 => List.length (ms 1) | 3 => List.length (ms 1) + List.length (ms 2)
                        | _ => List.length (ms 1) + List.length (ms 2) + List.length (ms 3) end.
Proof.
  intros H. destruct (Nat.lt_ge_cases id (List.length (ms 1))) as [L|L].
  { rewrite nth_error_app1 in H by exact L. exists 1, id. repeat split; [lia|lia|exact H|lia]. }
  rewrite nth_error_app2 in H by exact L. destruct (Nat.lt_ge_cases (id - List.length (ms 1)) (List.length (ms 2))) as [L2|L2].
  { rewrite nth_error_app1 in H by exact L2. exists 2, (id - List.length (ms 1)). repeat split; [lia|lia|exact H|lia]. }
  rewrite nth_error_app2 in H by exact L2.
  destruct (Nat.lt_ge_cases (id - List.length (ms 1) - List.length (ms 2)) (List.length (ms 3))) as [L3|L3].
  { rewrite nth_error_app1 in H by exact L3. exists 3, (id - List.length (ms 1) - List.length (ms 2)). repeat split; [lia|lia|exact H|lia]. }
  rewrite nth_error_app2 in H by exact L3. exists 4, (id - List.length (ms 1) - List.length (ms 2) - List.length (ms 3)).
  repeat split; [lia|lia|exact H|lia].
Qed.
Definition v_trees (x : vctx) (t : nat) : list Fr := match t with 1 => v_tree1 x | 2 => v_tree2 x | 3 => v_tree3 x | _ => v_tree4 x end.
Lemma src_from_layout env x si ms n1 n2 n3 r : layout_ok si ms n1 n2 n3 -> mv_holds env (si_map si) ms (v_trees x) -> q_src si r ->
  src_ok env x n1 n2 n3 r.
Proof.
  intros HL HM HQ. unfold q_src, src_ok in *. destruct (n_ty r) eqn:Ety; try exact Logic.I; try exact HQ; try contradiction.
  all: destruct HQ as (r0 & Er0 & HR); destruct (tree_shape si r0 r Er0 HR) as (p & s & Hp & Hm & Hty & Hs);
    rewrite (lo_cm _ _ _ _ _ HL) in Hp; destruct (cm_split ms _ _ Hp) as (t & i & Ht & Hi & Hid);
    pose proof (lo_sec _ _ _ _ _ HL t p s _ _ (nth_error_In _ _ Hi) Hm) as Hsec;
    rewrite (lo_1 _ _ _ _ _ HL), (lo_2 _ _ _ _ _ HL), (lo_3 _ _ _ _ _ HL) in Hid;
    rewrite Ety in Hty; intros v HE;
    destruct t as [|[|[|[|[|t]]]]]; try lia; subst s; try discriminate.
  - replace (n_id r) with i by lia. exact (tree_val _ _ _ _ 1 i p _ _ _ v HM ltac:(lia) Hi Hm HE).
  - replace (n_id r - n1) with i by lia. exact (tree_val _ _ _ _ 2 i p _ _ _ v HM ltac:(lia) Hi Hm HE).
  - replace (n_id r - n1 - n2) with i by lia. exact (tree_val _ _ _ _ 3 i p _ _ _ v HM ltac:(lia) Hi Hm HE).
  - replace (n_id r - n1 - n2 - n3) with i by lia. exact (tree_val _ _ _ _ 4 i p _ _ _ v HM ltac:(lia) Hi Hm HE).
Qed.

Section Div.
Local Transparent kconst kmul ksub kone kzero kdiv.
Lemma kdiv_def a b : kdiv a b = kmul a (kinv b).
Proof. reflexivity. Qed.
Lemma kscale X d : kmul (kconst X) d = mkK (fmul X (k0 d)) (fmul X (k1 d)) (fmul X (k2 d)).
Proof. apply k_ext; cbn [k0 k1 k2 kmul kconst]; ring. Qed.
Lemma ksub_const X a : ksub (kconst X) a = mkK (fsub X (k0 a)) (fneg (k1 a)) (fneg (k2 a)).
Proof. apply k_ext; cbn [k0 k1 k2 ksub kconst]; ring. Qed.
Lemma ksub_scaled X a w : ksub (kconst X) (kmul a (kconst w)) =
  mkK (fsub X (fmul w (k0 a))) (fmul (fneg w) (k1 a)) (fmul (fneg w) (k2 a)).
Proof. apply k_ext; cbn [k0 k1 k2 ksub kmul kconst]; ring. Qed.
Lemma kone_lit : mkK f1 f0 f0 = kone.
Proof. reflexivity. Qed.
End Div.
Lemma inv_unique D d : kmul D d = kone -> kinv D = d.
Proof.
  intros H. assert (N : D <> kzero).
  { intros ->. apply kone_neq. rewrite <- H. ring. }
  pose proof (kinv_l D N) as E. transitivity (kmul (kinv D) (kmul D d)); [rewrite H; ring|]. transitivity (kmul (kmul (kinv D) D) d); [ring|].
  rewrite E. ring.
Qed.
Lemma elems_val q a b c r : e_as_elements q = a :: b :: c :: r -> val q = mkK a b c.
Proof. unfold e_as_elements, val. destruct (d3 q); [intros [= <- <- <- _]; reflexivity|discriminate]. Qed.
Lemma div_elems x y X d a b c r : val x = kconst X -> kmul (val y) d = kone -> e_as_elements (e_div x y) = a :: b :: c :: r ->
  [fmul X (k0 d); fmul X (k1 d); fmul X (k2 d)] = [a; b; c].
Proof.
  intros Hx Hd HE. apply elems_val in HE. rewrite val_div, Hx in HE. rewrite kdiv_def in HE. rewrite (inv_unique _ _ Hd), kscale in HE.
  injection HE as <- <- <-. reflexivity.
Qed.

Lemma vq_ok perm si pg croot p challenge q idx env ms n1 n2 n3 ys prog t l :
  layout_ok si ms n1 n2 n3 -> (forall c r, In c (pg_query pg) -> In r (i_src c) -> q_src si r) ->
  inputs_ok env (mkV [] [] [] [] (fst (nth 4 q ([], []))) (sp_evals p) (sp_publics p) challenge [] [] e_ZERO e_ZERO) ->
  env TZ = [f0; f0; f0] -> 0 < si_nbits_ext si <= 32 -> idx = bitsum ys (si_nbits_ext si) ->
  unroll n1 n2 n3 (pg_query pg) = Ok (prog, t) ->
  vq_body env (si_map si) ms (fun t => fst (nth (t - 1) q ([], []))) (si_nbits si) (si_nbits_ext si) ys prog ->
  check_query perm si pg croot p challenge q idx = Ok l -> forall o, t_three env t = Some o ->
  exists v, l = [v] /\ F3gProof.wf v /\ val v = o.
Proof.
  intros HL HQ HI HZ He Hidx HU (HM & (xacc & xi & d1 & d2 & HX & Hxi & Hd1 & HTd & Hd2 & HTw) & HH) HC o Ho.
  revert HC. unfold check_query.
  destruct (check_root perm (sp_root1 p) q 0 idx) as [u1| | |]; try discriminate. cbn [bind].
  destruct (check_root perm (sp_root2 p) q 1 idx) as [u2| | |]; try discriminate. cbn [bind].
  destruct (check_root perm (sp_root3 p) q 2 idx) as [u3| | |]; try discriminate. cbn [bind].
  destruct (check_root perm (sp_root4 p) q 3 idx) as [u4| | |]; try discriminate. cbn [bind].
  destruct (check_root perm croot q 4 idx) as [u5| | |]; try discriminate. cbn [bind].
  destruct (@vget FriModel.opening q 0) as [o1| | |] eqn:E1; try discriminate. cbn [bind]. destruct (@vget FriModel.opening q 1) as [o2| | |] eqn:E2; try discriminate. cbn [bind].
  destruct (@vget FriModel.opening q 2) as [o3| | |] eqn:E3; try discriminate. cbn [bind]. destruct (@vget FriModel.opening q 3) as [o4| | |] eqn:E4; try discriminate. cbn [bind].
  destruct (@vget FriModel.opening q 4) as [oc| | |] eqn:E5; try discriminate. cbn [bind].
  rewrite (MG_root (si_nbits_ext si)) by lia. cbn [bind].
  destruct (MG (si_nbits si)) as [g| | |] eqn:Eg; try discriminate. cbn [bind].
  assert (Hg : g = root (si_nbits si)).
  { unfold MG in Eg. destruct (si_nbits si <=? 32); [injection Eg as <-; reflexivity|discriminate]. }
  subst g. clear Eg.
  destruct (vget challenge 7) as [xiv| | |] eqn:Ex; try discriminate. cbn [bind].
  pose proof (three_rel env (TChal 7) xiv xi (in_chals _ _ HI _ _ (vget_some _ _ _ Ex)) Hxi) as Hxv.
  cbv zeta. set (x := e_mul (e_from SHIFT) (e_exp (e_from (root (si_nbits_ext si))) (Z.of_nat idx))).
  assert (Hx : val x = kconst (xacc (si_nbits_ext si - 1))).
  { unfold x. rewrite val_mul, val_from, val_exp, val_from by lia. rewrite Nat2Z.id.
    rewrite (xacc_val _ _ _ HX ltac:(lia) ltac:(lia) (si_nbits_ext si - 1) ltac:(lia)), Hidx.
    replace (S (si_nbits_ext si - 1)) with (si_nbits_ext si) by lia. reflexivity. }
  clearbody x. set (X := xacc (si_nbits_ext si - 1)) in *. clearbody X.
  match goal with |- context [execute_code ?c _] => set (cx := c) end.
  apply vget_some in E1. apply vget_some in E2. apply vget_some in E3. apply vget_some in E4. apply vget_some in E5.
  assert (HI' : inputs_ok env cx).
  { destruct HI as [I1 I2 I3 I4 _ _]. constructor; [exact I1|exact I2|exact I3| | |].
    - unfold cx. cbn [v_consts]. cbn [v_consts] in I4. rewrite (nth_error_nth _ _ _ E5) in I4. exact I4.
    - unfold cx. cbn [v_xdiv]. intros a b c r E. rewrite HTd. refine (div_elems x _ X d1 a b c r Hx _ E).
      rewrite val_sub, Hx, Hxv, ksub_const, Hd1. exact kone_lit.
    - unfold cx. cbn [v_xdivw]. intros a b c r E. rewrite HTw. refine (div_elems x _ X d2 a b c r Hx _ E).
      rewrite val_sub, val_mul, Hx, Hxv, val_from, ksub_scaled. change (vq_root (si_nbits si)) with (root (si_nbits si)) in Hd2.
      rewrite Hd2. exact kone_lit. }
  assert (HM' : mv_holds env (si_map si) ms (v_trees cx)).
  { intros t' i p' s pos dim Ht' Hi Hp. specialize (HM t' i p' s pos dim Ht' Hi Hp). unfold cx.
    destruct t' as [|[|[|[|[|t']]]]]; try lia; cbn [Nat.sub] in HM; cbn [v_trees v_tree1 v_tree2 v_tree3 v_tree4].
    - rewrite (nth_error_nth _ _ _ E1) in HM. exact HM.
    - rewrite (nth_error_nth _ _ _ E2) in HM. exact HM.
    - rewrite (nth_error_nth _ _ _ E3) in HM. exact HM.
    - rewrite (nth_error_nth _ _ _ E4) in HM. exact HM. }
  assert (HZ' : relv (v_Z cx) (env TZ)).
  { rewrite HZ. split; [apply wf_from|reflexivity]. }
  destruct (execute_code cx (pg_query pg)) as [v| | |] eqn:EX; try discriminate. cbn [bind]. intros [= <-].
  pose proof (unroll_ok env cx n1 n2 n3 HI' HZ' (pg_query pg) prog t v
    (fun c r H1 H2 => src_from_layout env cx si ms n1 n2 n3 r HL HM' (HQ c r H1 H2)) HU HH EX) as HV.
  exists v. split; [reflexivity|]. split; [exact (proj1 HV)|]. exact (three_rel env t v o HV Ho).
Qed.
