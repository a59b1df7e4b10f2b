(* The unrolled arithmetic of the circuit against execute_code. *)
From Verif Require Import Base NumTheory GlModel GlProof FrField Cubic F3gModel F3gProof CodegenModel InterpModel VerifierModel UnrollModel.
From Coq Require Import Lia.
Open Scope nat_scope.
Open Scope res_scope.

(* a value of the verifier and the elements of a signal *)
Definition relv (v : F3G) (l : list Fr) : Prop :=
  F3gProof.wf v /\ match l with [a] => val v = mkK a f0 f0 | [a; b; c] => val v = mkK a b c | _ => False end.

Ltac kx := apply k_ext; cbn [k0 k1 k2 kadd ksub kmul kneg]; ring.
Ltac ops :=
  repeat match goal with
  | |- context [t_val ?e ?t] => generalize (t_val e t); intros
  end.

Section S.
Variable env : txt -> list Fr.
Let T := t_val env.

Ltac cases d := destruct d as [|[|[|[|d]]]]; try discriminate.
Ltac shape3 l := destruct l as [|? [|? [|? [|]]]]; cbn [relv nth_error opt2 list3 k0 k1 k2]; try (intros _ []; contradiction); try discriminate.

Lemma add_ok d0 d1 x y r l a b : u_add d0 d1 x y = Ok r -> r_val env r = Some l ->
  relv a (T x) -> relv b (T y) -> relv (e_add a b) l.
Proof.
  unfold T. cases d0; cases d1; cbn [u_add]; intros [= <-]; cbn [r_val x_val]; unfold t_one;
  generalize (t_val env x), (t_val env y); intros lx ly; shape3 lx; shape3 ly; intros [= <-] (WA & HA) (WB & HB); try contradiction;
  (split; [apply wf_add|]); cbn [list3]; rewrite val_add, HA, HB; kx.
Qed.
Lemma sub_ok d0 d1 x y r l a b : u_sub d0 d1 x y = Ok r -> r_val env r = Some l ->
  relv a (T x) -> relv b (T y) -> relv (e_sub a b) l.
Proof.
  unfold T. cases d0; cases d1; cbn [u_sub]; intros [= <-]; cbn [r_val x_val]; unfold t_one;
  generalize (t_val env x), (t_val env y); intros lx ly; shape3 lx; shape3 ly; intros [= <-] (WA & HA) (WB & HB); try contradiction;
  (split; [apply wf_sub|]); cbn [list3]; rewrite val_sub, HA, HB; kx.
Qed.
Lemma mul_ok d0 d1 x y r l a b : u_mul d0 d1 x y = Ok r -> r_val env r = Some l ->
  relv a (T x) -> relv b (T y) -> relv (e_mul a b) l.
Proof.
  unfold T. cases d0; cases d1; cbn [u_mul]; intros [= <-]; cbn [r_val x_val a_val]; unfold t_one, t_three;
  generalize (t_val env x), (t_val env y); intros lx ly; shape3 lx; shape3 ly; intros [= <-] (WA & HA) (WB & HB); try contradiction;
  (split; [apply wf_mul|]); cbn [list3]; rewrite val_mul, HA, HB; kx.
Qed.
Lemma copy_ok d0 x r l a : u_copy d0 x = Ok r -> r_val env r = Some l -> relv a (T x) -> relv a l.
Proof.
  unfold T. cases d0; cbn [u_copy]; intros [= <-]; cbn [r_val x_val]; unfold t_one, t_three;
  generalize (t_val env x); intros lx; shape3 lx; intros [= <-] (WA & HA); first [contradiction|exact HA|exact (conj WA HA)].
Qed.
Lemma arg_ok d x r k a : u_arg d x = Ok r -> a_val env r = Some k -> relv a (T x) -> val a = k.
Proof.
  unfold T. cases d; cbn [u_arg]; intros [= <-]; cbn [a_val]; unfold t_one, t_three;
  generalize (t_val env x); intros lx; shape3 lx; intros [= <-] (WA & HA); first [contradiction|exact HA|exact (conj WA HA)].
Qed.
Lemma muladd_ok d0 d1 d2 x y z r l a b c : u_muladd d0 d1 d2 x y z = Ok r -> r_val env r = Some l ->
  relv a (T x) -> relv b (T y) -> relv c (T z) -> relv (e_add (e_mul a b) c) l.
Proof.
  unfold u_muladd. cases d2.
  - unfold T. cases d0; cases d1; intros [= <-]; cbn [r_val x_val a_val]; unfold t_one, t_three;
    generalize (t_val env x), (t_val env y), (t_val env z); intros lx ly lz; shape3 lx; shape3 ly; shape3 lz; intros [= <-] (WA & HA) (WB & HB) (WC & HC); try contradiction;
    (split; [apply wf_add|]); cbn [list3]; rewrite val_add, val_mul, HA, HB, HC; kx.
  - destruct ((d0 =? 1) && (d1 =? 1)) eqn:E.
    + unfold T. intros [= <-]; cbn [r_val x_val a_val]; unfold t_one, t_three;
      generalize (t_val env x), (t_val env y), (t_val env z); intros lx ly lz; shape3 lx; shape3 ly; shape3 lz; intros [= <-] (WA & HA) (WB & HB) (WC & HC); try contradiction;
      (split; [apply wf_add|]); cbn [list3]; rewrite val_add, val_mul, HA, HB, HC; kx.
    + destruct (u_arg d0 x) as [ra| | |] eqn:E0; try discriminate. destruct (u_arg d1 y) as [rb| | |] eqn:E1; try discriminate.
      destruct (u_arg 3 z) as [rc| | |] eqn:E2; try discriminate. intros [= <-]. cbn [r_val].
      destruct (a_val env ra) as [ka|] eqn:F0; [|discriminate]. destruct (a_val env rb) as [kb|] eqn:F1; [|discriminate].
      destruct (a_val env rc) as [kc|] eqn:F2; [|discriminate]. intros [= <-] HA HB HC.
      split; [apply wf_add|]. cbn [list3]. rewrite val_add, val_mul, (arg_ok _ _ _ _ _ E0 F0 HA), (arg_ok _ _ _ _ _ E1 F1 HB), (arg_ok _ _ _ _ _ E2 F2 HC).
      apply k_ext; reflexivity.
Qed.
End S.

(* ---- the inputs of the circuit and of the verifier ---- *)
(* the source of an instruction: the tree values that MapValues outputs are those the verifier takes from the leaf, literals are not
   below -p, and Z is not primed *)
Definition src_ok (env : txt -> list Fr) (x : vctx) (n1 n2 n3 : nat) (r : node) : Prop :=
  match n_ty r with
  | Ntree1 => forall v, extract_val (v_tree1 x) (n_pos r) (n_dim r) = Ok v -> relv v (env (TTree 1 (n_id r)))
  | Ntree2 => forall v, extract_val (v_tree2 x) (n_pos r) (n_dim r) = Ok v -> relv v (env (TTree 2 (n_id r - n1)))
  | Ntree3 => forall v, extract_val (v_tree3 x) (n_pos r) (n_dim r) = Ok v -> relv v (env (TTree 3 (n_id r - n1 - n2)))
  | Ntree4 => forall v, extract_val (v_tree4 x) (n_pos r) (n_dim r) = Ok v -> relv v (env (TTree 4 (n_id r - n1 - n2 - n3)))
  | Nnumber => forall k, n_value r = Some k -> (- GLP <= k)%Z
  | NZ => n_prime r = false
  | _ => True
  end.
Record inputs_ok (env : txt -> list Fr) (x : vctx) : Prop := mkIn {
  in_evals : forall i v, nth_error (v_evals x) i = Some v -> relv v (env (TEval i));
  in_chals : forall i v, nth_error (v_challenge x) i = Some v -> relv v (env (TChal i));
  in_pubs : forall i v, nth_error (v_publics x) i = Some v -> relv v (env (TPub i));
  in_consts : forall i a, nth_error (v_consts x) i = Some a -> env (TConst i) = [a];
  in_xd : forall a b c r, v_xdiv x = a :: b :: c :: r -> env TXd = [a; b; c];
  in_xdw : forall a b c r, v_xdivw x = a :: b :: c :: r -> env TXdw = [a; b; c] }.

Lemma vget_some {A} (l : list A) i v : vget l i = Ok v -> nth_error l i = Some v.
Proof. unfold vget. destruct (nth_error l i); [intros [= ->]; reflexivity|discriminate]. Qed.
Lemma three_b_val l a v : three_b l a = Ok v -> exists x y z,
  nth_error l a = Some x /\ nth_error l (a + 1) = Some y /\ nth_error l (a + 2) = Some z /\ F3gProof.wf v /\ val v = mkK x y z.
Proof.
  unfold three_b. destruct (vget l a) as [x| | |] eqn:E0; try discriminate. destruct (vget l (a + 1)) as [y| | |] eqn:E1; try discriminate.
  destruct (vget l (a + 2)) as [z| | |] eqn:E2; try discriminate. intros [= <-]. exists x, y, z.
  repeat (split; [apply vget_some; assumption|]). split; [apply wf_new|reflexivity].
Qed.
Lemma number_ok k v : (- GLP <= k)%Z -> number_ref (Some k) = Ok v -> F3gProof.wf v /\ val v = mkK (fof k) f0 f0.
Proof.
  intros H. unfold number_ref. cbn [unwrap bind].
  destruct ((- 2 ^ 127 <=? k) && (k <? 2 ^ 127) && (pil_number k <? GLP))%Z; [|discriminate]. intros [= <-].
  split; [apply wf_from|]. rewrite val_from. assert (E : (pil_number k mod P = k mod P)%Z).
  { change P with GLP. assert (HG : (0 < GLP)%Z) by reflexivity. assert (HB : (GLP < 2 ^ 64)%Z) by reflexivity.
    unfold pil_number. set (n := if (k <? 0)%Z then (k + GLP)%Z else k).
    assert (Hn : (0 <= n)%Z /\ (n mod GLP = k mod GLP)%Z).
    { unfold n. destruct (k <? 0)%Z eqn:E; [apply Z.ltb_lt in E|apply Z.ltb_ge in E; split; [exact E|reflexivity]].
      split; [lia|]. rewrite <- (Z.mul_1_l GLP) at 1. apply Z.mod_add. lia. }
    destruct Hn as (Hn & <-). clearbody n. rewrite Z.rem_mod_nonneg by lia.
    pose proof (Z.mod_pos_bound n GLP HG). rewrite (Z.mod_small _ (2 ^ 64)) by lia. apply Z.mod_mod. lia. }
  rewrite <- (fof_mod (pil_number k)), E, fof_mod. reflexivity.
Qed.
Lemma xdiv_ok l v (t : list Fr) : (forall a b c r, l = a :: b :: c :: r -> t = [a; b; c]) -> three_b l 0 = Ok v -> relv v t.
Proof.
  intros H E. destruct (three_b_val _ _ _ E) as (a & b & c & A & B & C & V).
  destruct l as [|a' [|b' [|c' r]]]; try discriminate. cbn in A, B, C.
  injection A as ->. injection B as ->. injection C as ->. rewrite (H _ _ _ _ eq_refl). exact V.
Qed.

Section R.
Variables (env : txt -> list Fr) (x : vctx) (n1 n2 n3 : nat).
Hypothesis HI : inputs_ok env x.
Hypothesis HZ : relv (v_Z x) (env TZ).
Definition tmps_ok (tmp : nat -> option F3G) : Prop := forall k v, tmp k = Some v -> relv v (env (TTmp k)).

Lemma usub_ok a b c : usub a b = Ok c -> c = a - b.
Proof. unfold usub. destruct (b <=? a); [intros [= <-]; reflexivity|discriminate]. Qed.
Lemma ref_ok tmp r t v : tmps_ok tmp -> src_ok env x n1 n2 n3 r -> u_ref n1 n2 n3 r = Ok t -> v_get x tmp r = Ok v ->
  relv v (t_val env t).
Proof.
  intros HT. unfold src_ok, u_ref, v_get. destruct (n_ty r) eqn:Ety; intros HS; try discriminate.
  - intros [= <-]. cbn [t_val]. destruct (tmp (n_id r)) as [w|] eqn:E; [|discriminate]. intros [= <-]. exact (HT _ _ E).
  - intros [= <-]. cbn [t_val]. destruct (vget (v_consts x) (n_id r)) as [a| | |] eqn:E; try discriminate. intros [= <-].
    apply vget_some in E. rewrite (in_consts _ _ HI _ _ E). exact (conj (wf_from a) (val_from a)).
  - destruct (n_value r) as [k|]; [|discriminate]. intros [= <-]. cbn [t_val relv]. exact (number_ok k v (HS k eq_refl)).
  - intros [= <-] E. exact (in_pubs _ _ HI _ _ (vget_some _ _ _ E)).
  - intros [= <-] E. exact (in_chals _ _ HI _ _ (vget_some _ _ _ E)).
  - intros [= <-] E. exact (in_evals _ _ HI _ _ (vget_some _ _ _ E)).
  - intros [= <-] E. exact (xdiv_ok _ _ _ (in_xd _ _ HI) E).
  - intros [= <-] E. exact (xdiv_ok _ _ _ (in_xdw _ _ HI) E).
  - intros [= <-] E. exact (in_chals _ _ HI _ _ (vget_some _ _ _ E)).
  - rewrite HS. intros [= <-] [= <-]. exact HZ.
  - intros [= <-]. exact (HS v).
  - destruct (usub (n_id r) n1) as [a| | |] eqn:U; try discriminate. intros [= <-]. rewrite (usub_ok _ _ _ U). exact (HS v).
  - destruct (usub (n_id r) n1) as [a| | |] eqn:U; try discriminate. cbn [bind].
    destruct (usub a n2) as [b| | |] eqn:U2; try discriminate. intros [= <-].
    rewrite (usub_ok _ _ _ U2), (usub_ok _ _ _ U). exact (HS v).
  - destruct (usub (n_id r) n1) as [a| | |] eqn:U; try discriminate. cbn [bind].
    destruct (usub a n2) as [b| | |] eqn:U2; try discriminate. cbn [bind]. destruct (usub b n3) as [c| | |] eqn:U3; try discriminate. intros [= <-].
    rewrite (usub_ok _ _ _ U3), (usub_ok _ _ _ U2), (usub_ok _ _ _ U). exact (HS v).
Qed.

Lemma mapM_cons_ok {A B} (f : A -> res B) a l o : mapM f (a :: l) = Ok o -> exists b o', f a = Ok b /\ mapM f l = Ok o' /\ o = b :: o'.
Proof.
  cbn [mapM]. destruct (f a) as [b| | |]; try discriminate. cbn [bind]. destruct (mapM f l) as [o'| | |]; try discriminate.
  cbn [bind]. intros [= <-]. exists b, o'. repeat split.
Qed.
Ltac bd := match goal with |- bind ?m _ = Ok _ -> _ => let E := fresh "U" in destruct m eqn:E; try discriminate; cbn [bind] end.

Lemma stm_ok tmp c s v src : tmps_ok tmp -> (forall r, In r (i_src c) -> src_ok env x n1 n2 n3 r) ->
  u_stm n1 n2 n3 c = Ok s -> s_holds env s -> mapM (v_get x tmp) (i_src c) = Ok src -> v_op (i_op c) src = Ok v ->
  relv v (env (fst s)) /\ u_ref n1 n2 n3 (i_dest c) = Ok (fst s).
Proof.
  intros HT HS. unfold u_stm. destruct (u_rhs n1 n2 n3 c) as [r| | |] eqn:ER; try discriminate.
  destruct (u_ref n1 n2 n3 (i_dest c)) as [d| | |]; try discriminate. intros [= <-]. cbn [s_holds fst snd]. intros HH HM HO.
  split; [|reflexivity]. unfold s_holds in HH. cbn [fst snd] in HH. revert ER. unfold u_rhs.
  pose proof (fun y t w (Hi : In y (i_src c)) => ref_ok tmp y t w HT (HS y Hi)) as REF. clear HS.
  destruct (i_op c); (destruct (i_src c) as [|a rest]; [discriminate|]); destruct (mapM_cons_ok _ _ _ _ HM) as (va & s1 & GA & HM1 & ->); clear HM.
  4: { destruct rest as [|b [|e rest]]; try discriminate.
    destruct (mapM_cons_ok _ _ _ _ HM1) as (vb & s2 & GB & HM2 & ->). destruct (mapM_cons_ok _ _ _ _ HM2) as (vc & s3 & GC & HM3 & ->).
    injection HO as <-. repeat bd. intros UM.
    exact (muladd_ok env _ _ _ _ _ _ _ _ _ _ _ UM HH (REF _ _ _ (or_introl eq_refl) U GA) (REF _ _ _ (or_intror (or_introl eq_refl)) U0 GB)
      (REF _ _ _ (or_intror (or_intror (or_introl eq_refl))) U1 GC)). }
  4: { injection HO as <-. bd. intros UM. exact (copy_ok env _ _ _ _ _ UM HH (REF _ _ _ (or_introl eq_refl) U GA)). }
  all: destruct rest as [|b rest]; try discriminate; destruct (mapM_cons_ok _ _ _ _ HM1) as (vb & s2 & GB & HM2 & ->); injection HO as <-;
    repeat bd; intros UM.
  - exact (add_ok env _ _ _ _ _ _ _ _ UM HH (REF _ _ _ (or_introl eq_refl) U GA) (REF _ _ _ (or_intror (or_introl eq_refl)) U0 GB)).
  - exact (sub_ok env _ _ _ _ _ _ _ _ UM HH (REF _ _ _ (or_introl eq_refl) U GA) (REF _ _ _ (or_intror (or_introl eq_refl)) U0 GB)).
  - exact (mul_ok env _ _ _ _ _ _ _ _ UM HH (REF _ _ _ (or_introl eq_refl) U GA) (REF _ _ _ (or_intror (or_introl eq_refl)) U0 GB)).
Qed.

Lemma run_ok code : forall tmp l tmp', tmps_ok tmp -> (forall c r, In c code -> In r (i_src c) -> src_ok env x n1 n2 n3 r) ->
  mapM (u_stm n1 n2 n3) code = Ok l -> Forall (s_holds env) l -> v_run x tmp code = Ok tmp' -> tmps_ok tmp'.
Proof.
  induction code as [|c code IH]; intros tmp l tmp' HT HS HU HH; cbn [v_run]; [intros [= <-]; exact HT|].
  destruct (mapM_cons_ok _ _ _ _ HU) as (s & l' & US & UL & ->).
  destruct (mapM (v_get x tmp) (i_src c)) as [src| | |] eqn:EM; try discriminate. cbn [bind].
  destruct (v_op (i_op c) src) as [v| | |] eqn:EO; try discriminate. cbn [bind].
  destruct (stm_ok tmp c s v src HT (fun r Hr => HS c r (or_introl eq_refl) Hr) US (Forall_inv HH) EM EO) as (HV & HD).
  destruct (n_ty (i_dest c)) eqn:Ety; try discriminate. intros HR.
  refine (IH _ l' tmp' _ (fun c' r H1 H2 => HS c' r (or_intror H1) H2) UL (Forall_inv_tail HH) HR).
  intros k w. destruct (k =? n_id (i_dest c)) eqn:Ek; [|exact (HT k w)]. intros [= <-]. apply Nat.eqb_eq in Ek. subst k.
  unfold u_ref in HD. rewrite Ety in HD. injection HD as HD. rewrite HD. exact HV.
Qed.

Lemma run_dest code : forall tmp tmp', v_run x tmp code = Ok tmp' -> forall c, In c code -> n_ty (i_dest c) = Ntmp.
Proof.
  induction code as [|c code IH]; intros tmp tmp'; cbn [v_run]; [intros _ c []|].
  destruct (mapM (v_get x tmp) (i_src c)) as [src| | |]; try discriminate. cbn [bind].
  destruct (v_op (i_op c) src) as [v| | |]; try discriminate. cbn [bind].
  destruct (n_ty (i_dest c)) eqn:Ety; try discriminate. intros HR c' [<- |Hc]; [exact Ety|exact (IH _ _ HR c' Hc)].
Qed.
Lemma unroll_ok code l t v : (forall c r, In c code -> In r (i_src c) -> src_ok env x n1 n2 n3 r) ->
  unroll n1 n2 n3 code = Ok (l, t) -> Forall (s_holds env) l -> execute_code x code = Ok v -> relv v (t_val env t).
Proof.
  intros HS. unfold unroll, execute_code. destruct (mapM (u_stm n1 n2 n3) code) as [l0| | |] eqn:EU; try discriminate. cbn [bind].
  destruct (rev code) as [|c rc] eqn:ER; [discriminate|].
  destruct (u_ref n1 n2 n3 (i_dest c)) as [t0| | |] eqn:ET; try discriminate. cbn [bind]. intros [= -> ->] HH.
  destruct (v_run x (fun _ => None) code) as [tmp| | |] eqn:EV; try discriminate. cbn [bind].
  assert (H0 : tmps_ok (fun _ => None)) by (intros k w H; discriminate H).
  pose proof (run_ok code _ l tmp H0 HS EU HH EV) as HT.
  assert (Hin : In c code) by (rewrite in_rev, ER; left; reflexivity).
  pose proof (run_dest code _ _ EV c Hin) as Hty. unfold u_ref in ET. rewrite Hty in ET. injection ET as <-.
  unfold v_get. rewrite Hty. destruct (tmp (n_id (i_dest c))) as [w|] eqn:Ew; [|discriminate]. intros [= <-]. exact (HT _ _ Ew).
Qed.
End R.
Lemma unroll_same env x n1 n2 n3 code l t v : inputs_ok env x -> relv (v_Z x) (env TZ) ->
  (forall c r, In c code -> In r (i_src c) -> src_ok env x n1 n2 n3 r) ->
  unroll n1 n2 n3 code = Ok (l, t) -> Forall (s_holds env) l -> execute_code x code = Ok v -> exists k, t = TTmp k /\ relv v (env t).
Proof.
  intros HI HZ HS HU HH HX. pose proof (unroll_ok env x n1 n2 n3 HI HZ code l t v HS HU HH HX) as HV. revert HU HX. unfold unroll, execute_code.
  destruct (mapM (u_stm n1 n2 n3) code) as [l0| | |]; try discriminate. cbn [bind]. destruct (rev code) as [|c rc] eqn:ER; [discriminate|].
  destruct (u_ref n1 n2 n3 (i_dest c)) as [t0| | |] eqn:ET; try discriminate. cbn [bind]. intros [= -> ->].
  destruct (v_run x (fun _ => None) code) as [tmp| | |] eqn:EV; try discriminate. intros _.
  assert (Hin : In c code) by (rewrite in_rev, ER; left; reflexivity).
  unfold u_ref in ET. rewrite (run_dest x code _ _ EV c Hin) in ET. injection ET as <-. exists (n_id (i_dest c)). split; [reflexivity|exact HV].
Qed.
