(* Proofs about ImModel.v. *)
From Coq Require Import Ring.
From Verif Require Import Base GlModel FrField F3gModel Cubic ListAux ProverProof CodegenModel CodegenProof ImModel.
Open Scope nat_scope.
Open Scope list_scope.
Open Scope res_scope.
Add Ring K_ring_im : K_ring.

(* ---------- polynomial functions of bounded degree ---------- *)
Fixpoint pv (c : list K) (x : K) : K := match c with [] => kzero | a :: r => kadd a (kmul x (pv r x)) end.
Definition poly_le (k : nat) (f : K -> K) : Prop := exists c, length c <= S k /\ forall x, f x = pv c x.
Fixpoint padd (a b : list K) : list K :=
  match a, b with [], _ => b | _, [] => a | x :: r, y :: s => kadd x y :: padd r s end.
Lemma padd_v a : forall b x, pv (padd a b) x = kadd (pv a x) (pv b x).
Proof.
  induction a as [|u a IH]; intros [|v b] x; cbn [padd pv]; try ring. rewrite IH. ring.
Qed.
Lemma padd_len a : forall b, length (padd a b) = Nat.max (length a) (length b).
Proof. induction a as [|u a IH]; intros [|v b]; cbn [padd length]; try lia. rewrite IH. lia. Qed.
Lemma pscale_v k a x : pv (map (kmul k) a) x = kmul k (pv a x).
Proof. induction a as [|u a IH]; cbn [map pv]; [ring|]. rewrite IH. ring. Qed.
Fixpoint pmul (a b : list K) : list K :=
  match a with [] => [] | [u] => map (kmul u) b | u :: r => padd (map (kmul u) b) (kzero :: pmul r b) end.
Lemma pmul_v a b x : pv (pmul a b) x = kmul (pv a x) (pv b x).
Proof.
  induction a as [|u [|w a] IH]; [cbn; ring| |].
  - cbn [pmul pv]. rewrite pscale_v. ring.
  - cbn [pmul]. cbn [pmul] in IH. rewrite padd_v, pscale_v. cbn [pv] in *. rewrite IH. ring.
Qed.
Lemma pmul_len a b : b <> [] -> length (pmul a b) <= length a + length b - 1.
Proof.
  intros Hb. assert (0 < length b) by (destruct b; [congruence | cbn; lia]).
  induction a as [|u [|w a] IH]; [cbn; lia| |].
  - cbn [pmul length]. rewrite map_length. lia.
  - cbn [pmul length] in *. rewrite padd_len, map_length. cbn [length]. lia.
Qed.
Lemma poly_mono k k' f : k <= k' -> poly_le k f -> poly_le k' f.
Proof. intros H [c [L E]]. exists c. split; [lia | exact E]. Qed.
Lemma poly_add k f g : poly_le k f -> poly_le k g -> poly_le k (fun x => kadd (f x) (g x)).
Proof.
  intros [a [La Ea]] [b [Lb Eb]]. exists (padd a b). split; [rewrite padd_len; lia|]. intros x. now rewrite padd_v, Ea, Eb.
Qed.
Lemma poly_neg k f : poly_le k f -> poly_le k (fun x => kneg (f x)).
Proof.
  intros [a [La Ea]]. exists (map (kmul (kneg kone)) a). split; [rewrite map_length; lia|]. intros x. rewrite pscale_v, Ea. ring.
Qed.
Lemma poly_ext k f g : (forall x, f x = g x) -> poly_le k f -> poly_le k g.
Proof. intros H [a [La Ea]]. exists a. split; [exact La|]. intros x. now rewrite <- H. Qed.
Lemma poly_sub k f g : poly_le k f -> poly_le k g -> poly_le k (fun x => ksub (f x) (g x)).
Proof.
  intros Hf Hg. eapply poly_ext; [|apply poly_add; [exact Hf | apply poly_neg; exact Hg]]. intros x. cbn beta. ring.
Qed.
Lemma poly_mul k l f g : poly_le k f -> poly_le l g -> poly_le (k + l) (fun x => kmul (f x) (g x)).
Proof.
  intros [a [La Ea]] [b [Lb Eb]]. destruct b as [|u b].
  - exists []. split; [cbn; lia|]. intros x. rewrite Eb. cbn [pv]. ring.
  - exists (pmul a (u :: b)). pose proof (pmul_len a (u :: b) ltac:(discriminate)) as L. split; [cbn [length] in *; lia|].
    intros x. now rewrite pmul_v, Ea, Eb.
Qed.
Lemma poly_id : poly_le 1 (fun x => x).
Proof. exists [kzero; kone]. split; [cbn; lia|]. intros x. cbn [pv]. ring. Qed.

(* ---------- the columns an expression stands for ---------- *)
(* [leaf n] is the polynomial behind a reference; an expression in the set [T] stands for its own committed
   column, any other one for its definition *)
Section PVal.
  Variables (tbl : list expr) (leaf : node -> K -> K) (T : list nat).
  Inductive pval : bool -> expr -> (K -> K) -> Prop :=
  | P_add p e a b r f g : e_op e = OAdd -> e_values e = a :: b :: r -> pval p a f -> pval p b g -> pval p e (fun x => kadd (f x) (g x))
  | P_sub p e a b r f g : e_op e = OSub -> e_values e = a :: b :: r -> pval p a f -> pval p b g -> pval p e (fun x => ksub (f x) (g x))
  | P_mul p e a b r f g : e_op e = OMul -> e_values e = a :: b :: r -> pval p a f -> pval p b g -> pval p e (fun x => kmul (f x) (g x))
  | P_muladd p e a b c r f g h : e_op e = OMuladd -> e_values e = a :: b :: c :: r -> pval p a f -> pval p b g -> pval p c h ->
      pval p e (fun x => kadd (kmul (f x) (g x)) (h x))
  | P_addc p e a r k f : e_op e = OAddc -> e_values e = a :: r -> pval p a f -> pval p e (fun x => kadd (f x) (leaf (N_new Nnumber 0 k false) x))
  | P_mulc p e a r k f : e_op e = OMulc -> e_values e = a :: r -> pval p a f -> pval p e (fun x => kmul (f x) (leaf (N_new Nnumber 0 k false) x))
  | P_neg p e a r f : e_op e = ONeg -> e_values e = a :: r -> pval p a f -> pval p e (fun x => kneg (f x))
  | P_im p e i : e_op e = OExp -> e_id e = Some i -> In i T -> pval p e (leaf (N_new Nexp i None (e_next e || p)))
  | P_exp p e i e' f : e_op e = OExp -> e_id e = Some i -> ~ In i T -> nth_error tbl i = Some e' -> pval (e_next e || p) e' f -> pval p e f
  | P_cm p e i : e_op e = OCm -> e_id e = Some i -> pval p e (leaf (N_new Ncm i None (e_next e || p)))
  | P_const p e i : e_op e = OConst -> e_id e = Some i -> pval p e (leaf (N_new Nconst i None (e_next e || p)))
  | P_number p e : e_op e = ONumber -> pval p e (leaf (N_new Nnumber 0 (e_value e) false))
  | P_public p e i : e_op e = OPublic -> e_id e = Some i -> pval p e (leaf (N_new Npublic i None false))
  | P_challenge p e i : e_op e = OChallenge -> e_id e = Some i -> pval p e (leaf (N_new Nchallenge i None false))
  | P_eval p e i : e_op e = OEval -> e_id e = Some i -> pval p e (leaf (N_new Neval i None false))
  | P_x p e : e_op e = OX -> pval p e (fun x => x).
End PVal.
(* committed and constant columns have degree at most n, numbers, publics, challenges and evaluations are
   constants *)
Definition leaf_le (n : nat) (leaf : node -> K -> K) : Prop :=
  forall nd, poly_le (match n_ty nd with Nnumber | Npublic | Nchallenge | Neval => 0 | _ => n end) (leaf nd).

(* ---------- more fuel ---------- *)
Lemma max_dims_ext (f g : expr -> res Z) l : (forall x r, f x = Ok r -> g x = Ok r) -> forall md r, max_dims f l md = Ok r -> max_dims g l md = Ok r.
Proof.
  intros H. induction l as [|x l IH]; intros md r E; cbn [max_dims] in *; [exact E|].
  destruct (f x) as [d| | |] eqn:Ed; try discriminate E. rewrite (H _ _ Ed). cbn [bind] in *. apply IH, E.
Qed.
Ltac step H := match type of H with bind ?e _ = Ok _ => let E := fresh "E" in destruct e eqn:E; try discriminate H; cbn [bind] in H end.
Lemma exp_deg_S tbl fuel : forall e k, exp_deg fuel tbl e = Ok k -> exp_deg (S fuel) tbl e = Ok k.
Proof.
  induction fuel as [|fuel IH]; intros e k H; [discriminate H|].
  cbn [exp_deg] in H. change (exp_deg (S (S fuel)) tbl e) with
     (match e_op e with
      | OAdd | OSub | OAddc | OMulc | ONeg => max_dims (exp_deg (S fuel) tbl) (e_values e) 1%Z
      | OMul => do a <- vget (e_values e) 0; do b <- vget (e_values e) 1;
          do x <- exp_deg (S fuel) tbl a; do y <- exp_deg (S fuel) tbl b; Ok (x + y)%Z
      | OMuladd => do a <- vget (e_values e) 0; do b <- vget (e_values e) 1;
          do x <- exp_deg (S fuel) tbl a; do y <- exp_deg (S fuel) tbl b;
          do c <- vget (e_values e) 2; do z <- exp_deg (S fuel) tbl c; Ok (Z.max (x + y) z)
      | OCm | OConst | OX => Ok 1%Z
      | OExp => do i <- unwrap (e_id e); do x <- vget tbl i; exp_deg (S fuel) tbl x
      | ONumber | OPublic | OChallenge | OEval => Ok 0%Z
      | _ => Panic
      end).
  destruct (e_op e); try exact H; try (eapply max_dims_ext; [exact IH | exact H]).
  - step H. step H. step H. step H. cbn [bind]. rewrite (IH _ _ E1). cbn [bind]. rewrite (IH _ _ E2). cbn [bind]. exact H.
  - step H. step H. step H. step H. step H. step H. cbn [bind]. rewrite (IH _ _ E1). cbn [bind]. rewrite (IH _ _ E2). cbn [bind].
    rewrite (IH _ _ E4). exact H.
  - step H. step H. cbn [bind]. rewrite E0. cbn [bind]. apply IH, H.
Qed.
Lemma exp_deg_le tbl f f' e k : f <= f' -> exp_deg f tbl e = Ok k -> exp_deg f' tbl e = Ok k.
Proof. induction 1; [auto|]. intros H'. apply exp_deg_S. auto. Qed.
Lemma exp_deg_det tbl f f' e k k' : exp_deg f tbl e = Ok k -> exp_deg f' tbl e = Ok k' -> k = k'.
Proof.
  intros A B. apply (exp_deg_le _ _ (Nat.max f f')) in A; [|lia]. apply (exp_deg_le _ _ (Nat.max f f')) in B; [|lia]. congruence.
Qed.
Lemma max_dims_ge f l : forall md r, max_dims f l md = Ok r -> (md <= r)%Z /\ forall x, In x l -> exists d, f x = Ok d /\ (d <= r)%Z.
Proof.
  induction l as [|x l IH]; intros md r H; cbn [max_dims] in H.
  - assert (md = r) by congruence. split; [lia|]. intros x [].
  - step H. apply IH in H as [A B]. destruct (Z.ltb_spec md a) as [L|L]; (split; [lia|]); intros y [<-|Hy]; try (exists a; split; [exact E | lia]); now apply B.
Qed.
Lemma exp_deg_nonneg tbl fuel : forall e k, exp_deg fuel tbl e = Ok k -> (0 <= k)%Z.
Proof.
  induction fuel as [|fuel IH]; intros e k H; [discriminate H|]. cbn [exp_deg] in H.
  destruct (e_op e); try discriminate H; try (apply max_dims_ge in H as [H _]; lia); try (assert (k = 1%Z) by congruence; lia); try (assert (k = 0%Z) by congruence; lia).
  - step H. step H. step H. step H. apply IH in E1, E2. assert ((a1 + a2)%Z = k) by congruence. lia.
  - step H. step H. step H. step H. step H. step H. apply IH in E1, E2, E4. assert (Z.max (a1 + a2) a4 = k) by congruence. lia.
  - step H. step H. eapply IH, H.
Qed.

Lemma im_sum_ext (f g : expr -> option (list nat) -> Z -> res im_res) l : (forall v s a r, f v s a = Ok r -> g v s a = Ok r) ->
  forall s md amd r, im_sum f l s md amd = Ok r -> im_sum g l s md amd = Ok r.
Proof.
  intros H. induction l as [|v l IH]; intros s md amd r E; cbn [im_sum] in *; [exact E|].
  step E. rewrite (H _ _ _ _ E0). cbn [bind]. destruct a as [[s' d] amd']. apply IH, E.
Qed.
Lemma im_split_ext (f f' g g' : option (list nat) -> nat -> Z -> res im_res) s m ls :
  (forall s l a r, f s l a = Ok r -> g s l a = Ok r) -> (forall s l a r, f' s l a = Ok r -> g' s l a = Ok r) ->
  forall eb ed amd r, im_split f f' s m ls eb ed amd = Ok r -> im_split g g' s m ls eb ed amd = Ok r.
Proof.
  intros H H'. induction ls as [|l ls IH]; intros eb ed amd r E; cbn [im_split] in *; [exact E|].
  step E. rewrite (H _ _ _ _ E0). cbn [bind]. destruct a as [[e1 d1] amd1].
  step E. rewrite (H' _ _ _ _ E1). cbn [bind]. destruct a as [[e2 d2] amd2].
  destruct (better e2 eb); (destruct (same_size _ s); [exact E | apply IH, E]).
Qed.
Definition im_body (rec : expr -> option (list nat) -> nat -> Z -> res im_res) (degf : expr -> res Z) (tbl : list expr) (abs : nat)
    (e : expr) (s : list nat) (m : nat) (amd : Z) : res im_res :=
  match e_op e with
  | OAdd | OSub | OAddc | OMulc | ONeg => im_sum (fun v s' => rec v s' m) (e_values e) (Some s) 0%Z amd
  | ONumber | OPublic | OChallenge => Ok (Some s, 0%Z, amd)
  | OX | OConst | OCm => if m <? 1 then Ok (None, (-1)%Z, amd) else Ok (Some s, 1%Z, amd)
  | OMul =>
      do a <- vget (e_values e) 0;
      if is_numlike a then do b <- vget (e_values e) 1; rec b (Some s) m amd
      else
        do b <- vget (e_values e) 1;
        if is_numlike b then rec a (Some s) m amd
        else
          do here <- degf e;
          if (here <=? Z.of_nat m)%Z then Ok (Some s, here, amd)
          else im_split (rec a) (rec b) s m (seq 0 (m + 1)) None (-1)%Z amd
  | OExp =>
      if m <? 1 then Ok (None, (-1)%Z, amd)
      else
        do i <- unwrap (e_id e);
        if im_mem i s then Ok (Some s, 1%Z, amd)
        else
          do x <- vget tbl i;
          do r <- rec x (Some s) abs amd;
          let '(s1, d, amd1) := r in
          match s1 with
          | None => Ok (None, (-1)%Z, amd1)
          | Some s2 =>
              if (Z.of_nat m <? d)%Z then Ok (Some (im_insert i s2), 1%Z, if (amd1 <? d)%Z then d else amd1)
              else Ok (Some s2, d, amd1)
          end
  | _ => Panic
  end.
Lemma im_pols_eq fuel tbl abs e s m amd :
  im_pols (S fuel) tbl abs e (Some s) m amd = im_body (im_pols fuel tbl abs) (exp_deg fuel tbl) tbl abs e s m amd.
Proof. reflexivity. Qed.
Lemma im_none fuel tbl abs e m amd r : im_pols fuel tbl abs e None m amd = Ok r -> r = (None, (-1)%Z, amd) /\ fuel <> 0.
Proof. destruct fuel; intros H; [discriminate H|]. cbn in H. split; congruence. Qed.
Lemma im_body_ext rec rec' degf degf' tbl abs e s m amd r :
  (forall v s l a r, rec v s l a = Ok r -> rec' v s l a = Ok r) -> (forall v r, degf v = Ok r -> degf' v = Ok r) ->
  im_body rec degf tbl abs e s m amd = Ok r -> im_body rec' degf' tbl abs e s m amd = Ok r.
Proof.
  intros H Hd E. unfold im_body in *. destruct (e_op e); try exact E; try (eapply im_sum_ext; [|exact E]; intros; now apply H).
  - step E. cbn [bind]. destruct (is_numlike a).
    + step E. cbn [bind]. now apply H.
    + step E. cbn [bind]. destruct (is_numlike a0); [now apply H|]. step E. rewrite (Hd _ _ E2). cbn [bind].
      destruct (a1 <=? Z.of_nat m)%Z; [exact E|]. eapply im_split_ext; [| |exact E]; intros; now apply H.
  - destruct (m <? 1); [exact E|]. step E. cbn [bind]. destruct (im_mem a s); [exact E|]. step E. cbn [bind].
    step E. rewrite (H _ _ _ _ _ E2). exact E.
Qed.
Lemma im_S tbl abs fuel : forall e s m amd r, im_pols fuel tbl abs e s m amd = Ok r -> im_pols (S fuel) tbl abs e s m amd = Ok r.
Proof.
  induction fuel as [|fuel IH]; intros e s m amd r H; [discriminate H|].
  destruct s as [s|]; [|exact H]. rewrite im_pols_eq in *. eapply im_body_ext; [exact IH | apply exp_deg_S | exact H].
Qed.
Lemma im_le tbl abs f f' e s m amd r : f <= f' -> im_pols f tbl abs e s m amd = Ok r -> im_pols f' tbl abs e s m amd = Ok r.
Proof. induction 1; [auto|]. intros H'. apply im_S. auto. Qed.
Lemma im_det tbl abs f f' e s m amd r r' : im_pols f tbl abs e s m amd = Ok r -> im_pols f' tbl abs e s m amd = Ok r' -> r = r'.
Proof.
  intros A B. apply (im_le _ _ _ (Nat.max f f')) in A; [|lia]. apply (im_le _ _ _ (Nat.max f f')) in B; [|lia]. congruence.
Qed.

(* ---------- expressions whose degree counts as zero ---------- *)
Fixpoint refs (e : expr) : list nat :=
  let 'mkE op id _ _ vs _ _ := e in
  let rs := (fix go l := match l with [] => [] | x :: r => refs x :: go r end) vs in
  match op with
  | OExp => match id with Some i => [i] | None => [] end
  | OMul => concat (firstn 2 rs)
  | OMuladd => concat (firstn 3 rs)
  | OAdd | OSub | OAddc | OMulc | ONeg => concat rs
  | _ => []
  end.
Lemma refs_eq e : refs e =
  match e_op e with
  | OExp => match e_id e with Some i => [i] | None => [] end
  | OMul => concat (firstn 2 (map refs (e_values e)))
  | OMuladd => concat (firstn 3 (map refs (e_values e)))
  | OAdd | OSub | OAddc | OMulc | ONeg => concat (map refs (e_values e))
  | _ => []
  end.
Proof.
  destruct e as [op id nx v vs c kp]. cbn [refs e_op e_id e_values].
  assert (G : (fix go l := match l with [] => [] | x :: r => refs x :: go r end) vs = map refs vs).
  { induction vs as [|x r IH]; cbn [map]; [reflexivity|]. now rewrite IH. }
  rewrite G. destruct op; reflexivity.
Qed.

Section Im.
  Variables (tbl : list expr) (abs : nat).
  Notation run fuel := (im_pols fuel tbl abs).
  Inductive zero : nat -> Prop :=
  | zero_deg i e fuel : nth_error tbl i = Some e -> exp_deg fuel tbl e = Ok 0%Z -> zero i
  | zero_run i e fuel amd x amd' : nth_error tbl i = Some e -> run fuel e (Some []) abs amd = Ok (Some x, 0%Z, amd') ->
      (forall j, In j (refs e) -> zero j) -> zero i.
  Definition zc (e : expr) : Prop := forall j, In j (refs e) -> zero j.
  Definition valid (s : list nat) : Prop := forall i, In i s -> ~ zero i.
  Lemma valid_nil : valid []. Proof. intros i []. Qed.

  Lemma zc_sum e : e_op e = OAdd \/ e_op e = OSub \/ e_op e = OAddc \/ e_op e = OMulc \/ e_op e = ONeg -> (zc e <-> Forall zc (e_values e)).
  Proof.
    intros H. unfold zc at 1. rewrite refs_eq.
    assert (G : (forall j, In j (concat (map refs (e_values e))) -> zero j) <-> Forall zc (e_values e)).
    { rewrite Forall_forall. split.
      - intros A v Hv j Hj. apply A. apply in_concat. exists (refs v). split; [now apply in_map | exact Hj].
      - intros A j Hj. apply in_concat in Hj as [l [Hl Hj]]. apply in_map_iff in Hl as [v [<- Hv]]. exact (A v Hv j Hj). }
    destruct H as [->|[->|[->|[->| ->]]]]; exact G.
  Qed.
  Lemma zc_mul e a b : e_op e = OMul -> nth_error (e_values e) 0 = Some a -> nth_error (e_values e) 1 = Some b -> (zc e <-> zc a /\ zc b).
  Proof.
    intros Ho Ha Hb. unfold zc. rewrite refs_eq, Ho. destruct (e_values e) as [|u [|w vs]]; try discriminate Ha; try discriminate Hb.
    cbn [nth_error] in Ha, Hb. assert (u = a) by congruence. assert (w = b) by congruence. subst. cbn [map firstn concat].
    rewrite app_nil_r. setoid_rewrite in_app_iff. firstorder.
  Qed.
  Lemma zc_numlike a : is_numlike a = true -> zc a.
  Proof. intros H j Hj. rewrite refs_eq in Hj. unfold is_numlike in H. destruct (e_op a); try discriminate H; destruct Hj. Qed.
  Lemma deg0_zc fuel : forall e, exp_deg fuel tbl e = Ok 0%Z -> zc e.
  Proof.
    induction fuel as [|fuel IH]; intros e H; [discriminate H|]. cbn [exp_deg] in H. intros j Hj. rewrite refs_eq in Hj.
    destruct (e_op e) eqn:Ho; try discriminate H; try (destruct Hj); try (apply max_dims_ge in H as [H _]; lia).
    - step H. step H. step H. step H. pose proof (exp_deg_nonneg _ _ _ _ E1). pose proof (exp_deg_nonneg _ _ _ _ E2).
      assert ((a1 + a2)%Z = 0%Z) by congruence. assert (a1 = 0%Z) by lia. assert (a2 = 0%Z) by lia. subst.
      apply vget_inv in E, E0. destruct (e_values e) as [|u [|w vs]]; try discriminate E; try discriminate E0. cbn [nth_error] in E, E0.
      assert (u = a) by congruence. assert (w = a0) by congruence. subst. cbn [map firstn concat] in Hj. rewrite app_nil_r in Hj.
      apply in_app_or in Hj as [Hj|Hj]; [exact (IH _ E1 _ Hj) | exact (IH _ E2 _ Hj)].
    - step H. step H. step H. step H. step H. step H. pose proof (exp_deg_nonneg _ _ _ _ E1). pose proof (exp_deg_nonneg _ _ _ _ E2).
      pose proof (exp_deg_nonneg _ _ _ _ E4).
      assert (Z.max (a1 + a2) a4 = 0%Z) by congruence. assert (a1 = 0%Z) by lia. assert (a2 = 0%Z) by lia. assert (a4 = 0%Z) by lia. subst.
      apply vget_inv in E, E0, E3. destruct (e_values e) as [|u [|w [|z vs]]]; try discriminate E; try discriminate E0; try discriminate E3.
      cbn [nth_error] in E, E0, E3.
      assert (u = a) by congruence. assert (w = a0) by congruence. assert (z = a3) by congruence. subst. cbn [map firstn concat] in Hj. rewrite app_nil_r in Hj.
      apply in_app_or in Hj as [Hj|Hj]; [exact (IH _ E1 _ Hj)|]. apply in_app_or in Hj as [Hj|Hj]; [exact (IH _ E2 _ Hj) | exact (IH _ E4 _ Hj)].
    - step H. step H. destruct (e_id e) as [i|]; [|discriminate E]. cbn [unwrap] in E. assert (i = a) by congruence. subst i.
      destruct Hj as [<-|[]]. apply vget_inv in E0. exact (zero_deg a a0 fuel E0 H).
  Qed.

  Definition Vpost (e : expr) (s : list nat) (m : nat) (amd : Z) (r : im_res) : Prop :=
    (amd <= snd r)%Z /\
    forall s', fst (fst r) = Some s' -> valid s' /\ incl s s' /\ (0 <= snd (fst r) <= Z.of_nat m)%Z /\
      forall f k, exp_deg f tbl e = Ok k -> (snd (fst r) <= k)%Z.
  Definition V (fuel : nat) : Prop := forall e s m amd r, valid s -> run fuel e (Some s) m amd = Ok r -> Vpost e s m amd r.
  Definition C (fuel : nat) : Prop := forall e s1 m amd1 o d amd1', zc e -> valid s1 -> run fuel e (Some s1) m amd1 = Ok (o, d, amd1') ->
    (o = Some s1 \/ o = None) /\ amd1' = amd1 /\
    forall s2 amd2, valid s2 -> run fuel e (Some s2) m amd2 = Ok (match o with Some _ => Some s2 | None => None end, d, amd2).

  Lemma sum_V fuel m : V fuel -> forall l so md amd s' d amd', (forall s, so = Some s -> valid s) ->
    im_sum (fun v s => run fuel v s m) l so md amd = Ok (s', d, amd') ->
    (amd <= amd')%Z /\ forall t, s' = Some t -> exists s, so = Some s /\ valid t /\ incl s t /\ (md <= d <= Z.max md (Z.of_nat m))%Z /\
      forall f k K0, (md <= K0)%Z -> max_dims (exp_deg f tbl) l K0 = Ok k -> (d <= k)%Z.
  Proof.
    intros HV. induction l as [|v l IH]; intros so md amd s' d amd' Hs H; cbn [im_sum] in H.
    - assert (so = s') by congruence. assert (md = d) by congruence. assert (amd = amd') by congruence. subst. split; [lia|].
      intros t ->. exists t. split; [reflexivity|]. split; [now apply Hs|]. split; [apply incl_refl|]. split; [lia|].
      intros f k K0 Hk Hm. cbn [max_dims] in Hm. assert (K0 = k) by congruence. lia.
    - step H. destruct a as [[s1 d1] amd1]. destruct so as [s|].
      + destruct (HV _ _ _ _ _ (Hs s eq_refl) E) as [A B]. cbn [fst snd] in A, B.
        apply IH in H as [A' B']; [|intros t ->; now destruct (B t eq_refl)].
        split; [lia|]. intros t Ht. destruct (B' t Ht) as [s2 [-> [Vt [It [Dt Kt]]]]]. destruct (B s2 eq_refl) as [V2 [I2 [D2 K2]]].
        exists s. split; [reflexivity|]. split; [exact Vt|]. split; [eapply incl_tran; eassumption|].
        split; [destruct (Z.ltb_spec md d1); lia|].
        intros f k K0 Hk Hm. cbn [max_dims] in Hm. step Hm. apply (Kt f k (if (K0 <? a)%Z then a else K0)); [|exact Hm].
        pose proof (K2 _ _ E0). destruct (Z.ltb_spec md d1), (Z.ltb_spec K0 a); lia.
      + apply im_none in E as [E _]. assert (s1 = None) by congruence. assert (d1 = (-1)%Z) by congruence. assert (amd1 = amd) by congruence. subst.
        apply IH in H as [A B]; [|intros t Ht; discriminate Ht]. split; [exact A|]. intros t Ht. destruct (B t Ht) as [s [Hn _]]. discriminate Hn.
  Qed.
  Lemma sum_C fuel m : C fuel -> forall l so md amd s' d amd', Forall zc l -> (forall s, so = Some s -> valid s) ->
    im_sum (fun v s => run fuel v s m) l so md amd = Ok (s', d, amd') ->
    (s' = so \/ s' = None) /\ amd' = amd /\ forall s2 amd2, valid s2 ->
      im_sum (fun v s => run fuel v s m) l (match so with Some _ => Some s2 | None => None end) md amd2 = Ok (match s' with Some _ => Some s2 | None => None end, d, amd2).
  Proof.
    intros HC. induction l as [|v l IH]; intros so md amd s' d amd' Hz Hs H; cbn [im_sum] in H.
    - assert (so = s') by congruence. assert (md = d) by congruence. assert (amd = amd') by congruence. subst.
      split; [now left|]. split; [reflexivity|]. intros s2 amd2 _. reflexivity.
    - step H. destruct a as [[s1 d1] amd1]. inversion Hz as [|? ? Hz1 Hz2]; subst. destruct so as [s|].
      + destruct (HC _ _ _ _ _ _ _ Hz1 (Hs s eq_refl) E) as [A [-> B]].
        apply IH in H as [A' [-> B']]; [|exact Hz2 | intros t ->; destruct A as [A|A]; [|discriminate A]; assert (t = s) by congruence; subst; now apply Hs].
        split; [destruct A as [->| ->]; destruct A' as [->| ->]; auto|]. split; [reflexivity|].
        intros s2 amd2 V2. cbn [im_sum]. rewrite (B s2 amd2 V2). cbn [bind]. apply B', V2.
      + apply im_none in E as [E Hf]. assert (s1 = None) by congruence. assert (d1 = (-1)%Z) by congruence. assert (amd1 = amd) by congruence. subst.
        apply IH in H as [A' [-> B']]; [|exact Hz2 | intros t Ht; discriminate Ht].
        split; [exact A'|]. split; [reflexivity|]. intros s2 amd2 V2. cbn [im_sum].
        destruct fuel as [|fuel]; [congruence|]. cbn [im_pols bind]. apply (B' s2 amd2 V2).
  Qed.

  Lemma split_V fuel a b s m : V fuel -> valid s -> forall ls eb ed amd r, Forall (fun l => l <= m) ls ->
    (forall t, eb = Some t -> valid t /\ incl s t /\ (0 <= ed <= Z.of_nat m)%Z /\ forall f x y, exp_deg f tbl a = Ok x -> exp_deg f tbl b = Ok y -> (ed <= x + y)%Z) ->
    im_split (run fuel a) (run fuel b) s m ls eb ed amd = Ok r ->
    (amd <= snd r)%Z /\ forall t, fst (fst r) = Some t -> valid t /\ incl s t /\ (0 <= snd (fst r) <= Z.of_nat m)%Z /\
      forall f x y, exp_deg f tbl a = Ok x -> exp_deg f tbl b = Ok y -> (snd (fst r) <= x + y)%Z.
  Proof.
    intros HV Hs. induction ls as [|l ls IH]; intros eb ed amd r Hl Heb H; cbn [im_split] in H.
    - assert (r = (eb, ed, amd)) by congruence. subst. cbn [fst snd]. split; [lia | exact Heb].
    - inversion Hl as [|? ? Hl1 Hl2]; subst. step H. destruct a0 as [[e1 d1] amd1]. step H. destruct a0 as [[e2 d2] amd2].
      destruct (HV _ _ _ _ _ Hs E) as [A1 B1]. cbn [fst snd] in A1, B1.
      assert (N : (amd1 <= amd2)%Z /\ forall t, e2 = Some t -> valid t /\ incl s t /\ (0 <= d1 + d2 <= Z.of_nat m)%Z /\
                  forall f x y, exp_deg f tbl a = Ok x -> exp_deg f tbl b = Ok y -> (d1 + d2 <= x + y)%Z).
      { destruct e1 as [t1|].
        - destruct (B1 t1 eq_refl) as [V1 [I1 [D1 K1]]]. destruct (HV _ _ _ _ _ V1 E0) as [A2 B2]. cbn [fst snd] in A2, B2. split; [exact A2|].
          intros t ->. destruct (B2 t eq_refl) as [V2 [I2 [D2 K2]]]. split; [exact V2|]. split; [eapply incl_tran; eassumption|].
          split; [rewrite Nat2Z.inj_sub in D2 by exact Hl1; lia|]. intros f x y Hx Hy. pose proof (K1 _ _ Hx). pose proof (K2 _ _ Hy). lia.
        - apply im_none in E0 as [E0 _]. assert (e2 = None) by congruence. assert (amd2 = amd1) by congruence. subst. split; [lia|]. intros t Ht. discriminate Ht. }
      destruct N as [N1 N2].
      destruct (better e2 eb).
      + destruct (same_size e2 s).
        * assert (r = (e2, (d1 + d2)%Z, amd2)) by congruence. subst. cbn [fst snd]. split; [lia | exact N2].
        * apply IH in H as [A B]; [|exact Hl2 | exact N2]. split; [lia | exact B].
      + destruct (same_size eb s).
        * assert (r = (eb, ed, amd2)) by congruence. subst. cbn [fst snd]. split; [lia | exact Heb].
        * apply IH in H as [A B]; [|exact Hl2 | exact Heb]. split; [lia | exact B].
  Qed.
  Lemma split_C fuel a b s m : C fuel -> zc a -> zc b -> valid s -> forall ls eb ed amd o d amd',
    (eb = Some s \/ eb = None) -> im_split (run fuel a) (run fuel b) s m ls eb ed amd = Ok (o, d, amd') ->
    (o = Some s \/ o = None) /\ amd' = amd /\ forall s2 amd2, valid s2 ->
      im_split (run fuel a) (run fuel b) s2 m ls (match eb with Some _ => Some s2 | None => None end) ed amd2 = Ok (match o with Some _ => Some s2 | None => None end, d, amd2).
  Proof.
    intros HC Za Zb Hs. induction ls as [|l ls IH]; intros eb ed amd o d amd' Heb H; cbn [im_split] in H.
    - assert (o = eb) by congruence. assert (d = ed) by congruence. assert (amd' = amd) by congruence. subst. split; [exact Heb|]. split; reflexivity.
    - step H. destruct a0 as [[e1 d1] amd1]. step H. destruct a0 as [[e2 d2] amd2].
      destruct (HC _ _ _ _ _ _ _ Za Hs E) as [A1 [-> B1]].
      assert (N : (e2 = Some s \/ e2 = None) /\ amd2 = amd /\ forall s2 amd0, valid s2 ->
         run fuel b (match e1 with Some _ => Some s2 | None => None end) (m - l) amd0 = Ok (match e2 with Some _ => Some s2 | None => None end, d2, amd0)).
      { destruct A1 as [->| ->].
        - exact (HC _ _ _ _ _ _ _ Zb Hs E0).
        - apply im_none in E0 as [E0 Hf]. assert (e2 = None) by congruence. assert (d2 = (-1)%Z) by congruence. assert (amd2 = amd) by congruence. subst.
          split; [now right|]. split; [reflexivity|]. intros s2 amd0 _. destruct fuel; [congruence|]. reflexivity. }
      destruct N as [A2 [-> B2]].
      assert (Hb : better e2 eb = match e2, eb with Some _, None => true | _, _ => false end).
      { destruct A2 as [->| ->]; destruct Heb as [->| ->]; cbn [better]; try reflexivity. apply Nat.ltb_irrefl. }
      destruct A2 as [->| ->].
      + destruct Heb as [->| ->]; rewrite Hb in H; cbn [same_size] in H; rewrite Nat.eqb_refl in H;
          inversion H; subst; (split; [now left|]); (split; [reflexivity|]); intros s2 amd0 V2; cbn [im_split];
          rewrite (B1 s2 amd0 V2); cbn [bind]; rewrite (B2 s2 amd0 V2); cbn [bind better same_size];
          rewrite ?Nat.ltb_irrefl; cbn [same_size]; rewrite Nat.eqb_refl; reflexivity.
      + rewrite Hb in H. destruct Heb as [->| ->].
        * cbn [same_size] in H. rewrite Nat.eqb_refl in H. inversion H; subst. split; [now left|]. split; [reflexivity|].
          intros s2 amd0 V2. cbn [im_split]. rewrite (B1 s2 amd0 V2). cbn [bind]. rewrite (B2 s2 amd0 V2). cbn [bind better same_size].
          rewrite Nat.eqb_refl. reflexivity.
        * cbn [same_size] in H. apply IH in H as [A' [-> B']]; [|now right]. split; [exact A'|]. split; [reflexivity|].
          intros s2 amd0 V2. cbn [im_split]. rewrite (B1 s2 amd0 V2). cbn [bind]. rewrite (B2 s2 amd0 V2). cbn [bind better same_size]. exact (B' s2 amd0 V2).
  Qed.

  Lemma im_mem_in i s : im_mem i s = true <-> In i s.
  Proof.
    unfold im_mem. rewrite existsb_exists. split; [intros [x [Hx Hi]]; apply Nat.eqb_eq in Hi; now subst | intros H; exists i; split; [exact H | apply Nat.eqb_refl]].
  Qed.
  Lemma zero_zc i e : zero i -> nth_error tbl i = Some e -> zc e.
  Proof.
    intros Hz He. inversion Hz as [i' e' fuel He' Hd | i' e' fuel amd x amd' He' Hr Hj]; subst; assert (e' = e) by congruence; subst.
    - exact (deg0_zc _ _ Hd).
    - exact Hj.
  Qed.
  Lemma zero_d fuel i e s amd t d amd' : V fuel -> C fuel -> zero i -> nth_error tbl i = Some e -> valid s ->
    run fuel e (Some s) abs amd = Ok (Some t, d, amd') -> d = 0%Z.
  Proof.
    intros HV HC Hz He Hs H. pose proof (zero_zc i e Hz He) as Zc.
    destruct (HV _ _ _ _ _ Hs H) as [_ B]. destruct (B t eq_refl) as [_ [_ [D K0]]]. cbn [fst snd] in D, K0.
    inversion Hz as [i' e' f He' Hd | i' e' f a x a' He' Hr Hj]; subst; assert (e' = e) by congruence; subst.
    - pose proof (K0 _ _ Hd). lia.
    - destruct (HC _ _ _ _ _ _ _ Zc Hs H) as [_ [_ G]]. specialize (G [] a (valid_nil)). pose proof (im_det _ _ _ _ _ _ _ _ _ _ Hr G) as Q. congruence.
  Qed.

  Lemma seq_all_le m : Forall (fun l => l <= m) (seq 0 (m + 1)).
  Proof. apply Forall_forall. intros x Hx. apply in_seq in Hx. lia. Qed.
  Lemma deg_mul_inv e a b : e_op e = OMul -> nth_error (e_values e) 0 = Some a -> nth_error (e_values e) 1 = Some b ->
    forall f k, exp_deg f tbl e = Ok k -> exists f' x y, exp_deg f' tbl a = Ok x /\ exp_deg f' tbl b = Ok y /\ k = (x + y)%Z.
  Proof.
    intros Ho Ha Hb f k H. destruct f as [|f]; [discriminate H|]. cbn [exp_deg] in H. rewrite Ho in H.
    rewrite (vget_some _ _ _ Ha), (vget_some _ _ _ Hb) in H. cbn [bind] in H. step H. step H. exists f, a0, a1. repeat split; congruence.
  Qed.

  Lemma VC fuel : V fuel /\ C fuel.
  Proof.
    induction fuel as [|fuel [HV HC]]; [split; [intros e s m amd r _ H; discriminate H | intros e s1 m amd1 o d amd1' _ _ H; discriminate H]|].
    split.
    - intros e s m amd r Hs H. rewrite im_pols_eq in H. unfold im_body in H. unfold Vpost.
      assert (SUM : e_op e = OAdd \/ e_op e = OSub \/ e_op e = OAddc \/ e_op e = OMulc \/ e_op e = ONeg ->
        im_sum (fun v s' => run fuel v s' m) (e_values e) (Some s) 0%Z amd = Ok r -> Vpost e s m amd r).
      { intros Ho Hr. destruct r as [[s' d] amd']. apply (sum_V fuel m HV) in Hr as [A B]; [|intros t Ht; assert (t = s) by congruence; subst; exact Hs].
        split; [exact A|]. cbn [fst snd]. intros t Ht. destruct (B t Ht) as [s0 [Hs0 [Vt [It [Dt Kt]]]]]. assert (s0 = s) by congruence. subst s0.
        split; [exact Vt|]. split; [exact It|]. split; [lia|]. intros f k Hk. destruct f as [|f]; [discriminate Hk|]. cbn [exp_deg] in Hk.
        apply (Kt f k 1%Z); [lia|]. destruct Ho as [Ho|[Ho|[Ho|[Ho|Ho]]]]; rewrite Ho in Hk; exact Hk. }
      assert (NUM : e_op e = ONumber \/ e_op e = OPublic \/ e_op e = OChallenge -> Ok (Some s, 0%Z, amd) = Ok r -> Vpost e s m amd r).
      { intros Ho Hr. assert (r = (Some s, 0%Z, amd)) by congruence. subst. split; cbn [fst snd]; [lia|]. intros t Ht. assert (t = s) by congruence. subst.
        split; [exact Hs|]. split; [apply incl_refl|]. split; [lia|]. intros f k Hk. eapply exp_deg_nonneg, Hk. }
      assert (COL : e_op e = OCm \/ e_op e = OConst \/ e_op e = OX -> (if m <? 1 then Ok (None, (-1)%Z, amd) else Ok (Some s, 1%Z, amd)) = Ok r -> Vpost e s m amd r).
      { intros Ho Hr. destruct (Nat.ltb_spec m 1) as [L|L].
        - assert (r = (None, (-1)%Z, amd)) by congruence. subst. split; cbn [fst snd]; [lia|]. intros t Ht. discriminate Ht.
        - assert (r = (Some s, 1%Z, amd)) by congruence. subst. split; cbn [fst snd]; [lia|]. intros t Ht. assert (t = s) by congruence. subst.
          split; [exact Hs|]. split; [apply incl_refl|]. split; [lia|]. intros f k Hk. destruct f as [|f]; [discriminate Hk|]. cbn [exp_deg] in Hk.
          destruct Ho as [Ho|[Ho|Ho]]; rewrite Ho in Hk; assert (k = 1%Z) by congruence; lia. }
      destruct (e_op e) eqn:Ho; try discriminate H; try (now apply SUM; [tauto|]); try (now apply NUM; [tauto|]); try (now apply COL; [tauto|]).
      + step H. apply vget_inv in E. destruct (is_numlike a) eqn:Na.
        * step H. apply vget_inv in E0. destruct (HV _ _ _ _ _ Hs H) as [A B]. split; [exact A|]. intros t Ht. destruct (B t Ht) as [Vt [It [Dt Kt]]].
          split; [exact Vt|]. split; [exact It|]. split; [exact Dt|]. intros f k Hk. destruct (deg_mul_inv e a a0 Ho E E0 f k Hk) as [f' [x [y [Hx [Hy ->]]]]].
          pose proof (Kt _ _ Hy). pose proof (exp_deg_nonneg _ _ _ _ Hx). lia.
        * step H. apply vget_inv in E0. destruct (is_numlike a0) eqn:Nb.
          -- destruct (HV _ _ _ _ _ Hs H) as [A B]. split; [exact A|]. intros t Ht. destruct (B t Ht) as [Vt [It [Dt Kt]]].
             split; [exact Vt|]. split; [exact It|]. split; [exact Dt|]. intros f k Hk. destruct (deg_mul_inv e a a0 Ho E E0 f k Hk) as [f' [x [y [Hx [Hy ->]]]]].
             pose proof (Kt _ _ Hx). pose proof (exp_deg_nonneg _ _ _ _ Hy). lia.
          -- step H. destruct (Z.leb_spec a1 (Z.of_nat m)) as [L|L].
             ++ assert (r = (Some s, a1, amd)) by congruence. subst. cbn [fst snd]. split; [lia|]. intros t Ht. assert (t = s) by congruence. subst.
                pose proof (exp_deg_nonneg _ _ _ _ E1). split; [exact Hs|]. split; [apply incl_refl|]. split; [lia|].
                intros f k Hk. rewrite (exp_deg_det _ _ _ _ _ _ E1 Hk). lia.
             ++ apply (split_V fuel a a0 s m HV Hs) in H as [A B]; [|apply seq_all_le | intros t Ht; discriminate Ht].
                split; [exact A|]. intros t Ht. destruct (B t Ht) as [Vt [It [Dt Kt]]]. split; [exact Vt|]. split; [exact It|]. split; [exact Dt|].
                intros f k Hk. destruct (deg_mul_inv e a a0 Ho E E0 f k Hk) as [f' [x [y [Hx [Hy ->]]]]]. exact (Kt _ _ _ Hx Hy).
      + destruct (Nat.ltb_spec m 1) as [L|L].
        * assert (r = (None, (-1)%Z, amd)) by congruence. subst. cbn [fst snd]. split; [lia|]. intros t Ht. discriminate Ht.
        * step H. destruct (e_id e) as [i|] eqn:Ei; [|discriminate E]. assert (a = i) by (cbn in E; congruence). subst a.
          assert (DG : forall f k, exp_deg f tbl e = Ok k -> exists x f', nth_error tbl i = Some x /\ exp_deg f' tbl x = Ok k).
          { intros f k Hk. destruct f as [|f]; [discriminate Hk|]. cbn [exp_deg] in Hk. rewrite Ho, Ei in Hk. cbn [unwrap bind] in Hk. step Hk.
            apply vget_inv in E0. eauto. }
          destruct (im_mem i s) eqn:Em.
          -- apply im_mem_in in Em. assert (r = (Some s, 1%Z, amd)) by congruence. subst. cbn [fst snd]. split; [lia|]. intros t Ht. assert (t = s) by congruence. subst.
             split; [exact Hs|]. split; [apply incl_refl|]. split; [lia|]. intros f k Hk. destruct (DG f k Hk) as [x [f' [Hx Hk']]].
             pose proof (exp_deg_nonneg _ _ _ _ Hk'). destruct (Z.eq_dec k 0) as [->|]; [|lia]. exfalso. apply (Hs i Em). exact (zero_deg i x f' Hx Hk').
          -- step H. apply vget_inv in E0. rename a into x. step H. destruct a as [[s1 d] amd1]. destruct (HV _ _ _ _ _ Hs E1) as [A B]. cbn [fst snd] in A, B.
             destruct s1 as [s2|].
             ++ destruct (B s2 eq_refl) as [V2 [I2 [D2 K2]]]. destruct (Z.ltb_spec (Z.of_nat m) d) as [G|G].
                ** assert (r = (Some (im_insert i s2), 1%Z, if (amd1 <? d)%Z then d else amd1)) by congruence. subst. cbn [fst snd].
                   split; [destruct (Z.ltb_spec amd1 d); lia|]. intros t Ht. assert (t = im_insert i s2) by congruence. subst.
                   assert (NZ : ~ zero i). { intros Hz. pose proof (zero_d fuel i x s _ _ _ _ HV HC Hz E0 Hs E1). lia. }
                   split; [unfold im_insert; destruct (im_mem i s2); [exact V2|]; intros j [<-|Hj]; [exact NZ | now apply V2]|].
                   split; [unfold im_insert; destruct (im_mem i s2); [exact I2 | now apply incl_tl]|]. split; [lia|].
                   intros f k Hk. destruct (DG f k Hk) as [x' [f' [Hx Hk']]]. assert (x' = x) by congruence. subst. pose proof (K2 _ _ Hk'). lia.
                ** assert (r = (Some s2, d, amd1)) by congruence. subst. cbn [fst snd]. split; [lia|]. intros t Ht. assert (t = s2) by congruence. subst.
                   split; [exact V2|]. split; [exact I2|]. split; [lia|].
                   intros f k Hk. destruct (DG f k Hk) as [x' [f' [Hx Hk']]]. assert (x' = x) by congruence. subst. exact (K2 _ _ Hk').
             ++ assert (r = (None, (-1)%Z, amd1)) by congruence. subst. cbn [fst snd]. split; [lia|]. intros t Ht. discriminate Ht.
    - intros e s1 m amd1 o d amd1' Hz Hs H. rewrite im_pols_eq in H. unfold im_body in H.
      assert (SUM : e_op e = OAdd \/ e_op e = OSub \/ e_op e = OAddc \/ e_op e = OMulc \/ e_op e = ONeg ->
        im_sum (fun v s' => run fuel v s' m) (e_values e) (Some s1) 0%Z amd1 = Ok (o, d, amd1') ->
        (o = Some s1 \/ o = None) /\ amd1' = amd1 /\ forall s2 amd2, valid s2 -> im_sum (fun v s' => run fuel v s' m) (e_values e) (Some s2) 0%Z amd2 = Ok (match o with Some _ => Some s2 | None => None end, d, amd2)).
      { intros Ho Hr. apply (zc_sum e Ho) in Hz. apply (sum_C fuel m HC _ (Some s1)) in Hr; [exact Hr | exact Hz | intros t Ht; assert (t = s1) by congruence; now subst]. }
      destruct (e_op e) eqn:Ho; try discriminate H;
        try (destruct (SUM ltac:(tauto) H) as [A [B G]]; split; [exact A|]; split; [exact B|]; intros s2 amd2 V2; rewrite im_pols_eq; unfold im_body; rewrite Ho; now apply G);
        try (assert (o = Some s1) by congruence; assert (d = 0%Z) by congruence; assert (amd1' = amd1) by congruence; subst; split; [now left|]; split; [reflexivity|];
             intros s2 amd2 V2; rewrite im_pols_eq; unfold im_body; rewrite Ho; reflexivity);
        try (destruct (m <? 1) eqn:Em; (split; [first [left; congruence | right; congruence]|]); (split; [congruence|]); intros s2 amd2 V2; rewrite im_pols_eq; unfold im_body; rewrite Ho, Em; inversion H; reflexivity).
      + step H. apply vget_inv in E. destruct (is_numlike a) eqn:Na.
        * step H. apply vget_inv in E0. apply (zc_mul e a a0 Ho E E0) in Hz as [Za Zb].
          destruct (HC _ _ _ _ _ _ _ Zb Hs H) as [A [B G]]. split; [exact A|]. split; [exact B|]. intros s2 amd2 V2. rewrite im_pols_eq. unfold im_body.
          rewrite Ho, (vget_some _ _ _ E), (vget_some _ _ _ E0). cbn [bind]. rewrite Na. now apply G.
        * step H. apply vget_inv in E0. apply (zc_mul e a a0 Ho E E0) in Hz as [Za Zb]. destruct (is_numlike a0) eqn:Nb.
          -- destruct (HC _ _ _ _ _ _ _ Za Hs H) as [A [B G]]. split; [exact A|]. split; [exact B|]. intros s2 amd2 V2. rewrite im_pols_eq. unfold im_body.
             rewrite Ho, (vget_some _ _ _ E), (vget_some _ _ _ E0). cbn [bind]. rewrite Na, Nb. now apply G.
          -- step H. destruct (a1 <=? Z.of_nat m)%Z eqn:L.
             ++ split; [left; congruence|]. split; [congruence|]. intros s2 amd2 V2. rewrite im_pols_eq. unfold im_body.
                rewrite Ho, (vget_some _ _ _ E), (vget_some _ _ _ E0). cbn [bind]. rewrite Na, Nb, E1. cbn [bind]. rewrite L. inversion H; reflexivity.
             ++ apply (split_C fuel a a0 s1 m HC Za Zb Hs) in H as [A [B G]]; [|now right]. split; [exact A|]. split; [exact B|].
                intros s2 amd2 V2. rewrite im_pols_eq. unfold im_body.
                rewrite Ho, (vget_some _ _ _ E), (vget_some _ _ _ E0). cbn [bind]. rewrite Na, Nb, E1. cbn [bind]. rewrite L. now apply G.
      + destruct (m <? 1) eqn:Em.
        * split; [right; congruence|]. split; [congruence|]. intros s2 amd2 V2. rewrite im_pols_eq. unfold im_body. rewrite Ho, Em. inversion H; reflexivity.
        * step H. destruct (e_id e) as [i|] eqn:Ei; [|discriminate E]. assert (a = i) by (cbn in E; congruence). subst a.
          assert (Zi : zero i) by (apply Hz; rewrite refs_eq, Ho, Ei; now left).
          assert (NM : forall t, valid t -> im_mem i t = false).
          { intros t Ht. destruct (im_mem i t) eqn:Q; [|reflexivity]. apply im_mem_in in Q. destruct (Ht i Q Zi). }
          rewrite (NM s1 Hs) in H. step H. apply vget_inv in E0. rename a into x. step H. destruct a as [[t d'] amd'].
          destruct (HC _ _ _ _ _ _ _ (zero_zc i x Zi E0) Hs E1) as [A [-> G]].
          destruct A as [->| ->].
          -- pose proof (zero_d fuel i x s1 _ _ _ _ HV HC Zi E0 Hs E1) as ->. replace (Z.of_nat m <? 0)%Z with false in H by (symmetry; apply Z.ltb_ge; lia).
             split; [left; congruence|]. split; [congruence|]. intros s2 amd2 V2. rewrite im_pols_eq. unfold im_body. rewrite Ho, Em, Ei. cbn [unwrap bind].
             rewrite (NM s2 V2), (vget_some _ _ _ E0). cbn [bind]. rewrite (G s2 amd2 V2). cbn [bind].
             replace (Z.of_nat m <? 0)%Z with false by (symmetry; apply Z.ltb_ge; lia). inversion H; reflexivity.
          -- split; [right; congruence|]. split; [congruence|]. intros s2 amd2 V2. rewrite im_pols_eq. unfold im_body. rewrite Ho, Em, Ei. cbn [unwrap bind].
             rewrite (NM s2 V2), (vget_some _ _ _ E0). cbn [bind]. rewrite (G s2 amd2 V2). cbn [bind]. inversion H; reflexivity.
  Qed.

  Lemma sum_ds fuel m : forall l so md amd s' d amd', (forall s, so = Some s -> valid s) ->
    im_sum (fun v s => run fuel v s m) l so md amd = Ok (Some s', d, amd') ->
    (md <= d)%Z /\ exists s, so = Some s /\ valid s' /\ incl s s' /\ forall v, In v l -> exists t amd0 t' dv amd1, valid t /\
      run fuel v (Some t) m amd0 = Ok (Some t', dv, amd1) /\ (0 <= dv <= d)%Z /\ incl t' s'.
  Proof.
    induction l as [|v l IH]; intros so md amd s' d amd' Hs H; cbn [im_sum] in H.
    - assert (so = Some s') by congruence. assert (md = d) by congruence. subst. split; [lia|]. exists s'. split; [reflexivity|].
      split; [now apply Hs|]. split; [apply incl_refl|]. intros v [].
    - step H. destruct a as [[s1 d1] amd1]. destruct so as [s|].
      + destruct (VC fuel) as [HV _]. destruct (HV _ _ _ _ _ (Hs s eq_refl) E) as [_ B]. cbn [fst snd] in B.
        apply IH in H as [Md [s2 [-> [Vt [It Hv]]]]]; [|intros t ->; now destruct (B t eq_refl)].
        destruct (B s2 eq_refl) as [V2 [I2 [D2 _]]].
        split; [destruct (Z.ltb_spec md d1); lia|]. exists s. split; [reflexivity|]. split; [exact Vt|]. split; [eapply incl_tran; eassumption|].
        intros w [<-|Hw]; [|exact (Hv w Hw)]. exists s, amd, s2, d1, amd1. split; [now apply Hs|]. split; [exact E|].
        split; [destruct (Z.ltb_spec md d1); lia | exact It].
      + apply im_none in E as [E _]. assert (s1 = None) by congruence. subst.
        apply IH in H as [_ [s [Hn _]]]; [discriminate Hn | intros t Ht; discriminate Ht].
  Qed.
  (* the split that was chosen *)
  Lemma split_best fuel a b s m : valid s -> forall ls eb ed amd t d amd', Forall (fun l => l <= m) ls ->
    im_split (run fuel a) (run fuel b) s m ls eb ed amd = Ok (Some t, d, amd') ->
    (eb = Some t /\ ed = d) \/
    exists l amd0 t1 d1 amd1 d2 amd2, l <= m /\ run fuel a (Some s) l amd0 = Ok (Some t1, d1, amd1) /\
      run fuel b (Some t1) (m - l) amd1 = Ok (Some t, d2, amd2) /\ d = (d1 + d2)%Z.
  Proof.
    intros Hs. induction ls as [|l ls IH]; intros eb ed amd t d amd' Hl H; cbn [im_split] in H.
    - left. split; congruence.
    - inversion Hl as [|? ? Hl1 Hl2]; subst. step H. destruct a0 as [[e1 d1] amd1]. step H. destruct a0 as [[e2 d2] amd2].
      assert (N : e2 = Some t -> d = (d1 + d2)%Z -> exists l amd0 t1 d1 amd1 d2 amd2, l <= m /\ run fuel a (Some s) l amd0 = Ok (Some t1, d1, amd1) /\
        run fuel b (Some t1) (m - l) amd1 = Ok (Some t, d2, amd2) /\ d = (d1 + d2)%Z).
      { intros -> ->. destruct e1 as [t1|]; [|apply im_none in E0 as [E0 _]; discriminate E0].
        exists l, amd, t1, d1, amd1, d2, amd2. exact (conj Hl1 (conj E (conj E0 eq_refl))). }
      destruct (better e2 eb); (destruct (same_size _ s); [|destruct (IH _ _ _ _ _ _ Hl2 H) as [[H1 H2]|H']]).
      + right. apply N; congruence.
      + right. apply N; congruence.
      + right. exact H'.
      + left. split; congruence.
      + left. split; congruence.
      + right. exact H'.
  Qed.
  Lemma A fuel : forall e s m amd s' amd', valid s -> run fuel e (Some s) m amd = Ok (Some s', 0%Z, amd') -> zc e.
  Proof.
    induction fuel as [|fuel IH]; intros e s m amd s' amd' Hs H; [discriminate H|].
    rewrite im_pols_eq in H. unfold im_body in H.
    assert (SUM : e_op e = OAdd \/ e_op e = OSub \/ e_op e = OAddc \/ e_op e = OMulc \/ e_op e = ONeg ->
        im_sum (fun v s' => run fuel v s' m) (e_values e) (Some s) 0%Z amd = Ok (Some s', 0%Z, amd') -> zc e).
    { intros Ho Hr. apply sum_ds in Hr as [_ [s0 [_ [_ [_ Hv]]]]]; [|intros t Ht; assert (t = s) by congruence; now subst].
      apply zc_sum; [exact Ho|]. apply Forall_forall. intros v Hin. destruct (Hv v Hin) as (t & a0 & t' & dv & a1 & Vt & Rt & Dt & _).
      assert (dv = 0%Z) by lia. subst. exact (IH _ _ _ _ _ _ Vt Rt). }
    assert (NOREF : refs e = [] -> zc e) by (intros Hr j Hj; rewrite Hr in Hj; destruct Hj).
    destruct (e_op e) eqn:Ho; try discriminate H; try (apply SUM; [tauto | exact H]); try (apply NOREF; rewrite refs_eq, Ho; reflexivity).
    - step H. apply vget_inv in E. destruct (is_numlike a) eqn:Na.
      + step H. apply vget_inv in E0. apply (zc_mul e a a0 Ho E E0). split; [now apply zc_numlike | exact (IH _ _ _ _ _ _ Hs H)].
      + step H. apply vget_inv in E0. destruct (is_numlike a0) eqn:Nb.
        * apply (zc_mul e a a0 Ho E E0). split; [exact (IH _ _ _ _ _ _ Hs H) | now apply zc_numlike].
        * step H. destruct (a1 <=? Z.of_nat m)%Z.
          -- assert (a1 = 0%Z) by congruence. subst. exact (deg0_zc _ _ E1).
          -- apply split_best in H; [|exact Hs | apply seq_all_le]. destruct H as [[H _]|(l & b0 & t1 & d1 & b1 & d2 & b2 & Ll & R1 & R2 & Hd)]; [discriminate H|].
             destruct (VC fuel) as [HV _]. destruct (HV _ _ _ _ _ Hs R1) as [_ B1]. destruct (B1 t1 eq_refl) as [V1 [_ [D1 _]]]. cbn [fst snd] in D1.
             destruct (HV _ _ _ _ _ V1 R2) as [_ B2]. destruct (B2 s' eq_refl) as [_ [_ [D2 _]]]. cbn [fst snd] in D2.
             assert (d1 = 0%Z) by lia. assert (d2 = 0%Z) by lia. subst.
             apply (zc_mul e a a0 Ho E E0). split; [exact (IH _ _ _ _ _ _ Hs R1) | exact (IH _ _ _ _ _ _ V1 R2)].
    - destruct (m <? 1); [discriminate H|]. step H. destruct (e_id e) as [i|] eqn:Ei; [|discriminate E]. assert (a = i) by (cbn in E; congruence). subst a.
      destruct (im_mem i s); [discriminate H|]. step H. apply vget_inv in E0. rename a into x. step H. destruct a as [[s1 d] amd1]. destruct s1 as [s2|]; [|discriminate H].
      destruct (Z.of_nat m <? d)%Z; [discriminate H|]. assert (d = 0%Z) by congruence. subst.
      pose proof (IH _ _ _ _ _ _ Hs E1) as Zx. destruct (VC fuel) as [_ HC]. destruct (HC _ _ _ _ _ _ _ Zx Hs E1) as [_ [_ G]].
      specialize (G [] 0%Z valid_nil). intros j Hj. rewrite refs_eq, Ho, Ei in Hj. destruct Hj as [<-|[]]. exact (zero_run i x fuel _ _ _ E0 G Zx).
  Qed.

  (* ---------- degrees ---------- *)
  Variables (n : nat) (leaf : node -> K -> K).
  Hypothesis Hn : 1 <= n.
  Hypothesis Hleaf : leaf_le n leaf.
  Notation bound d := (Z.to_nat d * n).
  Lemma bound_mono a b f : (a <= b)%Z -> poly_le (bound a) f -> poly_le (bound b) f.
  Proof. intros H. apply poly_mono. apply Nat.mul_le_mono_r. lia. Qed.
  Lemma leaf_num k : poly_le 0 (leaf (N_new Nnumber 0 k false)).
  Proof. exact (Hleaf (N_new Nnumber 0 k false)). Qed.
  Lemma poly_mul0 k f c : poly_le k f -> poly_le 0 c -> poly_le k (fun x => kmul (f x) (c x)).
  Proof. intros A0 B0. rewrite <- (Nat.add_0_r k). now apply poly_mul. Qed.

  Lemma sum_pv T p e f d : e_op e = OAdd \/ e_op e = OSub \/ e_op e = OAddc \/ e_op e = OMulc \/ e_op e = ONeg ->
    pval tbl leaf T p e f -> (forall v g, In v (e_values e) -> pval tbl leaf T p v g -> poly_le (bound d) g) -> poly_le (bound d) f.
  Proof.
    intros Ho Hp Hv.
    destruct Hp as [p e a b r f g Ho' Hvs H1 H2|p e a b r f g Ho' Hvs H1 H2|p e a b r f g Ho' Hvs H1 H2|p e a b c r f g h Ho' Hvs H1 H2 H3
      |p e a r k f Ho' Hvs H1|p e a r k f Ho' Hvs H1|p e a r f Ho' Hvs H1|p e i Ho' Hi HT|p e i e' f Ho' Hi HT He H1
      |p e i Ho' Hi|p e i Ho' Hi|p e Ho'|p e i Ho' Hi|p e i Ho' Hi|p e i Ho' Hi|p e Ho'];
      rewrite Ho' in Ho; try (exfalso; intuition discriminate); rewrite Hvs in Hv.
    - apply poly_add; [apply (Hv a) | apply (Hv b)]; cbn [In]; auto.
    - apply poly_sub; [apply (Hv a) | apply (Hv b)]; cbn [In]; auto.
    - apply poly_add; [apply (Hv a); cbn [In]; auto | eapply poly_mono; [|apply leaf_num]; lia].
    - apply poly_mul0; [apply (Hv a); cbn [In]; auto | apply leaf_num].
    - apply poly_neg. apply (Hv a); cbn [In]; auto.
  Qed.
  Lemma mul_pv T p e f a b : e_op e = OMul -> nth_error (e_values e) 0 = Some a -> nth_error (e_values e) 1 = Some b ->
    pval tbl leaf T p e f -> exists g h, pval tbl leaf T p a g /\ pval tbl leaf T p b h /\ f = (fun x => kmul (g x) (h x)).
  Proof.
    intros Ho Ha Hb Hp. destruct Hp as [p e a' b' r f g Ho' Hvs H1 H2|p e a' b' r f g Ho' Hvs H1 H2|p e a' b' r f g Ho' Hvs H1 H2|p e a' b' c r f g h Ho' Hvs H1 H2 H3
      |p e a' r k f Ho' Hvs H1|p e a' r k f Ho' Hvs H1|p e a' r f Ho' Hvs H1|p e i Ho' Hi HT|p e i e' f Ho' Hi HT He H1
      |p e i Ho' Hi|p e i Ho' Hi|p e Ho'|p e i Ho' Hi|p e i Ho' Hi|p e i Ho' Hi|p e Ho'];
      rewrite Ho' in Ho; try discriminate Ho. rewrite Hvs in Ha, Hb. cbn [nth_error] in Ha, Hb. assert (a' = a) by congruence. assert (b' = b) by congruence. subst. eauto.
  Qed.
  Lemma exp_pv T p e f i : e_op e = OExp -> e_id e = Some i -> pval tbl leaf T p e f ->
    (In i T /\ poly_le n f) \/ (~ In i T /\ exists e', nth_error tbl i = Some e' /\ pval tbl leaf T (e_next e || p) e' f).
  Proof.
    intros Ho Hi0 Hp. destruct Hp as [p e a' b' r f g Ho' Hvs H1 H2|p e a' b' r f g Ho' Hvs H1 H2|p e a' b' r f g Ho' Hvs H1 H2|p e a' b' c r f g h Ho' Hvs H1 H2 H3
      |p e a' r k f Ho' Hvs H1|p e a' r k f Ho' Hvs H1|p e a' r f Ho' Hvs H1|p e i' Ho' Hi HT|p e i' e' f Ho' Hi HT He H1
      |p e i' Ho' Hi|p e i' Ho' Hi|p e Ho'|p e i' Ho' Hi|p e i' Ho' Hi|p e i' Ho' Hi|p e Ho'];
      rewrite Ho' in Ho; try discriminate Ho; assert (i' = i) by congruence; subst.
    - left. split; [exact HT|]. exact (Hleaf (N_new Nexp i None (e_next e || p))).
    - right. split; [exact HT|]. eauto.
  Qed.
  Lemma num_pv T p e f : e_op e = ONumber \/ e_op e = OPublic \/ e_op e = OChallenge \/ e_op e = OEval -> pval tbl leaf T p e f -> poly_le 0 f.
  Proof.
    intros Ho Hp. destruct Hp as [p e a' b' r f g Ho' Hvs H1 H2|p e a' b' r f g Ho' Hvs H1 H2|p e a' b' r f g Ho' Hvs H1 H2|p e a' b' c r f g h Ho' Hvs H1 H2 H3
      |p e a' r k f Ho' Hvs H1|p e a' r k f Ho' Hvs H1|p e a' r f Ho' Hvs H1|p e i Ho' Hi HT|p e i e' f Ho' Hi HT He H1
      |p e i Ho' Hi|p e i Ho' Hi|p e Ho'|p e i Ho' Hi|p e i Ho' Hi|p e i Ho' Hi|p e Ho'];
      rewrite Ho' in Ho; try (exfalso; intuition discriminate).
    - apply leaf_num.
    - exact (Hleaf (N_new Npublic i None false)).
    - exact (Hleaf (N_new Nchallenge i None false)).
    - exact (Hleaf (N_new Neval i None false)).
  Qed.
  Lemma col_pv T p e f : e_op e = OCm \/ e_op e = OConst \/ e_op e = OX -> pval tbl leaf T p e f -> poly_le n f.
  Proof.
    intros Ho Hp. destruct Hp as [p e a' b' r f g Ho' Hvs H1 H2|p e a' b' r f g Ho' Hvs H1 H2|p e a' b' r f g Ho' Hvs H1 H2|p e a' b' c r f g h Ho' Hvs H1 H2 H3
      |p e a' r k f Ho' Hvs H1|p e a' r k f Ho' Hvs H1|p e a' r f Ho' Hvs H1|p e i Ho' Hi HT|p e i e' f Ho' Hi HT He H1
      |p e i Ho' Hi|p e i Ho' Hi|p e Ho'|p e i Ho' Hi|p e i Ho' Hi|p e i Ho' Hi|p e Ho'];
      rewrite Ho' in Ho; try (exfalso; intuition discriminate).
    - exact (Hleaf (N_new Ncm i None (e_next e || p))).
    - exact (Hleaf (N_new Nconst i None (e_next e || p))).
    - eapply poly_mono; [exact Hn | exact poly_id].
  Qed.

  Lemma deg_pv T fuel : valid T -> forall e k p f, exp_deg fuel tbl e = Ok k -> pval tbl leaf T p e f -> poly_le (bound k) f.
  Proof.
    intros HT. induction fuel as [|fuel IH]; intros e k p f H Hp; [discriminate H|]. cbn [exp_deg] in H.
    assert (SUM : e_op e = OAdd \/ e_op e = OSub \/ e_op e = OAddc \/ e_op e = OMulc \/ e_op e = ONeg ->
      max_dims (exp_deg fuel tbl) (e_values e) 1%Z = Ok k -> poly_le (bound k) f).
    { intros Ho Hm. apply max_dims_ge in Hm as [_ Hm]. eapply sum_pv; [exact Ho | exact Hp|]. intros v g Hin Hg. destruct (Hm v Hin) as [d [Hd Hk]].
      eapply bound_mono; [exact Hk|]. eapply IH; eassumption. }
    destruct (e_op e) eqn:Ho; try discriminate H; try (apply SUM; [tauto | exact H]);
      try (eapply poly_mono; [|eapply num_pv; [|exact Hp]; rewrite Ho; tauto]; lia);
      try (assert (k = 1%Z) by congruence; subst; eapply poly_mono; [|eapply col_pv; [|exact Hp]; rewrite Ho; tauto]; cbn; lia).
    - step H. step H. step H. step H. apply vget_inv in E, E0. destruct (mul_pv T p e f a a0 Ho E E0 Hp) as [g [h [Hg [Hh ->]]]].
      pose proof (exp_deg_nonneg _ _ _ _ E1). pose proof (exp_deg_nonneg _ _ _ _ E2). assert (k = (a1 + a2)%Z) by congruence. subst.
      rewrite Z2Nat.inj_add by assumption. rewrite Nat.mul_add_distr_r. apply poly_mul; [eapply IH; [exact E1 | exact Hg] | eapply IH; [exact E2 | exact Hh]].
    - step H. step H. step H. step H. step H. step H. apply vget_inv in E, E0, E3.
      pose proof (exp_deg_nonneg _ _ _ _ E1) as N1. pose proof (exp_deg_nonneg _ _ _ _ E2) as N2.
      destruct Hp as [p e a' b' r f g Ho' Hvs H1 H2|p e a' b' r f g Ho' Hvs H1 H2|p e a' b' r f g Ho' Hvs H1 H2|p e a' b' c r f g h Ho' Hvs H1 H2 H3
      |p e a' r k' f Ho' Hvs H1|p e a' r k' f Ho' Hvs H1|p e a' r f Ho' Hvs H1|p e i Ho' Hi HT'|p e i e' f Ho' Hi HT' He H1
      |p e i Ho' Hi|p e i Ho' Hi|p e Ho'|p e i Ho' Hi|p e i Ho' Hi|p e i Ho' Hi|p e Ho'];
      rewrite Ho' in Ho; try discriminate Ho. rewrite Hvs in E, E0, E3. cbn [nth_error] in E, E0, E3.
      assert (a' = a) by congruence. assert (b' = a0) by congruence. assert (c = a3) by congruence. subst.
      assert (Z.max (a1 + a2) a4 = k) by congruence. apply poly_add.
      + apply (bound_mono (a1 + a2)%Z); [lia|]. rewrite Z2Nat.inj_add by assumption. rewrite Nat.mul_add_distr_r.
        apply poly_mul; [eapply IH; [exact E1 | exact H1] | eapply IH; [exact E2 | exact H2]].
      + apply (bound_mono a4); [lia|]. eapply IH; [exact E4 | exact H3].
    - step H. step H. destruct (e_id e) as [i|] eqn:Ei; [|discriminate E]. assert (a = i) by (cbn in E; congruence). subst a. apply vget_inv in E0.
      destruct (exp_pv T p e f i Ho Ei Hp) as [[HiT Hf]|[_ [e' [He' Hp']]]].
      + pose proof (exp_deg_nonneg _ _ _ _ H). destruct (Z.eq_dec k 0) as [->|]; [destruct (HT i HiT); exact (zero_deg i a0 fuel E0 H)|].
        eapply poly_mono; [|exact Hf]. replace n with (1 * n) at 1 by lia. apply Nat.mul_le_mono_r. lia.
      + assert (e' = a0) by congruence. subst. eapply IH; eassumption.
  Qed.

  Lemma im_pv fuel : forall e s m amd s' d amd', valid s -> run fuel e (Some s) m amd = Ok (Some s', d, amd') ->
    forall T p f, valid T -> incl s' T -> pval tbl leaf T p e f -> poly_le (bound d) f.
  Proof.
    induction fuel as [|fuel IH]; intros e s m amd s' d amd' Hs H T p f HT Hi Hp; [discriminate H|].
    rewrite im_pols_eq in H. unfold im_body in H.
    assert (SUM : e_op e = OAdd \/ e_op e = OSub \/ e_op e = OAddc \/ e_op e = OMulc \/ e_op e = ONeg ->
        im_sum (fun v s' => run fuel v s' m) (e_values e) (Some s) 0%Z amd = Ok (Some s', d, amd') -> poly_le (bound d) f).
    { intros Ho Hr. apply sum_ds in Hr as [_ [s0 [_ [_ [_ Hv]]]]]; [|intros t Ht; assert (t = s) by congruence; now subst].
      eapply sum_pv; [exact Ho | exact Hp|]. intros v g Hin Hg. destruct (Hv v Hin) as (t & a0 & t' & dv & a1 & Vt & Rt & Dt & It).
      apply (bound_mono dv); [lia|]. eapply IH; [exact Vt | exact Rt | exact HT | eapply incl_tran; eassumption | exact Hg]. }
    destruct (e_op e) eqn:Ho; try discriminate H; try (apply SUM; [tauto | exact H]);
      try (eapply poly_mono; [|eapply num_pv; [|exact Hp]; rewrite Ho; tauto]; lia);
      try (destruct (m <? 1); [discriminate H|]; assert (d = 1%Z) by congruence; subst; eapply poly_mono; [|eapply col_pv; [|exact Hp]; rewrite Ho; tauto]; cbn; lia).
    - assert (H' := H). step H. apply vget_inv in E. destruct (is_numlike a) eqn:Na.
      + step H. apply vget_inv in E0. destruct (mul_pv T p e f a a0 Ho E E0 Hp) as [g [h [Hg [Hh ->]]]].
        eapply poly_ext; [|apply poly_mul0; [eapply IH; [exact Hs | exact H | exact HT | exact Hi | exact Hh] | eapply num_pv; [|exact Hg]]].
        * intros x. cbn beta. ring.
        * unfold is_numlike in Na. destruct (e_op a); try discriminate Na; tauto.
      + step H. apply vget_inv in E0. destruct (mul_pv T p e f a a0 Ho E E0 Hp) as [g [h [Hg [Hh ->]]]]. destruct (is_numlike a0) eqn:Nb.
        * apply poly_mul0; [eapply IH; [exact Hs | exact H | exact HT | exact Hi | exact Hg] | eapply num_pv; [|exact Hh]].
          unfold is_numlike in Nb. destruct (e_op a0); try discriminate Nb; tauto.
        * step H. destruct (a1 <=? Z.of_nat m)%Z.
          -- assert (a1 = d) by congruence. subst. eapply deg_pv; eassumption.
          -- apply split_best in H; [|exact Hs | apply seq_all_le]. destruct H as [[H _]|(l & b0 & t1 & d1 & b1 & d2 & b2 & Ll & R1 & R2 & Hd)]; [discriminate H|].
             destruct (VC fuel) as [HV _]. destruct (HV _ _ _ _ _ Hs R1) as [_ B1]. destruct (B1 t1 eq_refl) as [V1 [_ [D1 _]]]. cbn [fst snd] in D1.
             destruct (HV _ _ _ _ _ V1 R2) as [_ B2]. destruct (B2 s' eq_refl) as [_ [I2 [D2 _]]]. cbn [fst snd] in D2. subst d.
             rewrite Z2Nat.inj_add by lia. rewrite Nat.mul_add_distr_r. apply poly_mul.
             ++ eapply IH; [exact Hs | exact R1 | exact HT | eapply incl_tran; eassumption | exact Hg].
             ++ eapply IH; [exact V1 | exact R2 | exact HT | exact Hi | exact Hh].
    - destruct (m <? 1); [discriminate H|]. step H. destruct (e_id e) as [i|] eqn:Ei; [|discriminate E]. assert (a = i) by (cbn in E; congruence). subst a.
      destruct (im_mem i s) eqn:Em.
      + apply im_mem_in in Em. assert (s' = s) by congruence. assert (d = 1%Z) by congruence. subst. destruct (exp_pv T p e f i Ho Ei Hp) as [[_ Hf]|[Hni _]].
        * eapply poly_mono; [|exact Hf]. cbn; lia.
        * destruct (Hni (Hi i Em)).
      + step H. apply vget_inv in E0. rename a into x. step H. destruct a as [[s1 d'] amd1]. destruct s1 as [s2|]; [|discriminate H].
        destruct (Z.of_nat m <? d')%Z.
        * assert (s' = im_insert i s2) by congruence. assert (d = 1%Z) by congruence. subst.
          assert (Hin : In i (im_insert i s2)) by (unfold im_insert; destruct (im_mem i s2) eqn:Q; [now apply im_mem_in | now left]).
          destruct (exp_pv T p e f i Ho Ei Hp) as [[_ Hf]|[Hni _]]; [|destruct (Hni (Hi i Hin))]. eapply poly_mono; [|exact Hf]. cbn; lia.
        * assert (s2 = s') by congruence. assert (d' = d) by congruence. subst.
          destruct (exp_pv T p e f i Ho Ei Hp) as [[HiT Hf]|[_ [e' [He' Hp']]]].
          -- destruct (VC fuel) as [HV HC]. destruct (HV _ _ _ _ _ Hs E1) as [_ B]. destruct (B s' eq_refl) as [_ [_ [D _]]]. cbn [fst snd] in D.
             destruct (Z.eq_dec d 0) as [->|].
             ++ exfalso. apply (HT i HiT). pose proof (A _ _ _ _ _ _ _ Hs E1) as Zx. destruct (HC _ _ _ _ _ _ _ Zx Hs E1) as [_ [_ G]].
                exact (zero_run i x fuel _ _ _ E0 (G [] 0%Z valid_nil) Zx).
             ++ eapply poly_mono; [|exact Hf]. replace n with (1 * n) at 1 by lia. apply Nat.mul_le_mono_r. lia.
          -- assert (e' = x) by congruence. subst. eapply IH; [exact Hs | exact E1 | exact HT | exact Hi | exact Hp'].
  Qed.

  (* the definitions of the chosen expressions *)
  Definition defs (s : list nat) (amd : Z) : Prop := forall i, In i s -> (1 <= amd)%Z /\ exists e, nth_error tbl i = Some e /\
    forall T p f, valid T -> incl s T -> pval tbl leaf T p e f -> poly_le (bound amd) f.
  Lemma defs_mono s s' a a' : incl s s' -> (a <= a')%Z -> (forall i, In i s' -> In i s) -> defs s a -> defs s' a'.
  Proof.
    intros Hi Ha Hb D i Hin. destruct (D i (Hb i Hin)) as [A1 [e [He Hf]]]. split; [lia|]. exists e. split; [exact He|].
    intros T p f HT HiT Hp. apply (bound_mono a); [exact Ha|]. eapply Hf; [exact HT | eapply incl_tran; eassumption | exact Hp].
  Qed.
  Definition Dpost (r : im_res) : Prop := (snd r <= Z.of_nat abs)%Z /\ forall t, fst (fst r) = Some t -> defs t (snd r).
  Lemma defs_amd s a a' : (a <= a')%Z -> defs s a -> defs s a'.
  Proof. intros H. apply defs_mono; [apply incl_refl | exact H | auto]. Qed.
  Lemma im_defs fuel : forall e s m amd r, valid s -> defs s amd -> (amd <= Z.of_nat abs)%Z -> run fuel e (Some s) m amd = Ok r -> Dpost r.
  Proof.
    induction fuel as [|fuel IH]; intros e s m amd r Hs Hd Ha H; [discriminate H|].
    assert (IHN : forall e so m amd r, (forall s, so = Some s -> valid s /\ defs s amd) -> (amd <= Z.of_nat abs)%Z -> run fuel e so m amd = Ok r -> Dpost r).
    { intros e0 so m0 amd0 r0 Hso Ha0 Hr. destruct so as [s0|]; [destruct (Hso s0 eq_refl); eapply IH; eassumption|].
      apply im_none in Hr as [-> _]. split; [exact Ha0|]. intros t Ht. discriminate Ht. }
    destruct (VC fuel) as [HV _]. pose proof (proj1 (VC (S fuel)) _ _ _ _ _ Hs H) as [HA _].
    rewrite im_pols_eq in H. unfold im_body in H.
    assert (SAME : forall o d, (o = Some s \/ o = None) -> Ok (o, d, amd) = Ok r -> Dpost r).
    { intros o d Ho Hr. assert (r = (o, d, amd)) by congruence. subst. split; [exact Ha|]. cbn [fst snd]. intros t ->.
      destruct Ho as [Ho|Ho]; [|discriminate Ho]. assert (t = s) by congruence. now subst. }
    assert (SUM : im_sum (fun v s' => run fuel v s' m) (e_values e) (Some s) 0%Z amd = Ok r -> Dpost r).
    { assert (G : forall l so md amd r, (forall s, so = Some s -> valid s /\ defs s amd) -> (amd <= Z.of_nat abs)%Z ->
         im_sum (fun v s' => run fuel v s' m) l so md amd = Ok r -> Dpost r).
      { induction l as [|v l IHl]; intros so md amd0 r0 Hso Ha0 Hr; cbn [im_sum] in Hr.
        - assert (r0 = (so, md, amd0)) by congruence. subst. split; [exact Ha0|]. cbn [fst snd]. intros t ->. now destruct (Hso t eq_refl).
        - step Hr. destruct a as [[s1 d1] amd1]. destruct (IHN _ _ _ _ _ Hso Ha0 E) as [P1 P2]. cbn [fst snd] in P1, P2.
          eapply IHl; [|exact P1|exact Hr]. intros t ->. split; [|now apply P2].
          destruct so as [s0|]; [|apply im_none in E as [E _]; discriminate E].
          destruct (Hso s0 eq_refl) as [Vs0 _]. destruct (HV _ _ _ _ _ Vs0 E) as [_ B]. now destruct (B t eq_refl). }
      apply G; [|exact Ha]. intros t Ht. assert (t = s) by congruence. now subst. }
    destruct (e_op e) eqn:Ho; try discriminate H; try (apply SUM; exact H); try (eapply SAME; [|exact H]; auto);
      try (destruct (m <? 1); (eapply SAME; [|exact H]; auto)).
    - step H. destruct (is_numlike a); [step H; eapply IH; eassumption|]. step H. destruct (is_numlike a0); [eapply IH; eassumption|].
      step H. destruct (a1 <=? Z.of_nat m)%Z; [eapply SAME; [|exact H]; auto|].
      assert (G : forall ls eb ed amd r, defs s amd -> (amd <= Z.of_nat abs)%Z -> (forall t, eb = Some t -> defs t amd) ->
          im_split (run fuel a) (run fuel a0) s m ls eb ed amd = Ok r -> Dpost r).
      { induction ls as [|l ls IHl]; intros eb ed amd0 r0 Hd0 Ha0 Heb Hr; cbn [im_split] in Hr.
        - assert (r0 = (eb, ed, amd0)) by congruence. subst. split; [exact Ha0 | exact Heb].
        - step Hr. destruct a2 as [[e1 d1] amd1]. step Hr. destruct a2 as [[e2 d2] amd2].
          destruct (IH _ _ _ _ _ Hs Hd0 Ha0 E2) as [P1 P2]. destruct (HV _ _ _ _ _ Hs E2) as [Q1 Q2]. cbn [fst snd] in P1, P2, Q1, Q2.
          assert (N : Dpost (e2, d2, amd2) /\ (amd1 <= amd2)%Z).
          { destruct e1 as [t1|].
            - destruct (Q2 t1 eq_refl) as [V1 _]. split; [exact (IH _ _ _ _ _ V1 (P2 t1 eq_refl) P1 E3)|]. exact (proj1 (HV _ _ _ _ _ V1 E3)).
            - apply im_none in E3 as [E3 _]. assert (e2 = None) by congruence. assert (amd2 = amd1) by congruence. subst. split; [|lia].
              split; [exact P1|]. intros t Ht. discriminate Ht. }
          destruct N as [[N1 N2] N3]. cbn [fst snd] in N1, N2.
          assert (Hd2 : defs s amd2) by (eapply defs_amd; [|exact Hd0]; lia).
          assert (Heb2 : forall t, eb = Some t -> defs t amd2) by (intros t Ht; eapply defs_amd; [|exact (Heb t Ht)]; lia).
          destruct (better e2 eb); (destruct (same_size _ s); [|eapply IHl; [exact Hd2 | exact N1 | | exact Hr]; assumption]).
          + assert (r0 = (e2, (d1 + d2)%Z, amd2)) by congruence. subst. split; [exact N1 | exact N2].
          + assert (r0 = (eb, ed, amd2)) by congruence. subst. split; [exact N1 | exact Heb2]. }
      refine (G _ None (-1)%Z amd r Hd Ha _ H). intros t Ht. discriminate Ht.
    - destruct (m <? 1); [eapply SAME; [|exact H]; auto|]. step H. destruct (e_id e) as [i|] eqn:Ei; [|discriminate E]. assert (a = i) by (cbn in E; congruence). subst a.
      destruct (im_mem i s); [eapply SAME; [|exact H]; auto|]. step H. apply vget_inv in E0. rename a into x. step H. destruct a as [[s1 d'] amd1].
      destruct (IH _ _ _ _ _ Hs Hd Ha E1) as [P1 P2]. cbn [fst snd] in P1, P2. destruct s1 as [s2|].
      + destruct (HV _ _ _ _ _ Hs E1) as [_ B]. destruct (B s2 eq_refl) as [V2 [_ [D2 _]]]. cbn [fst snd] in D2.
        destruct (Z.ltb_spec (Z.of_nat m) d') as [L|L].
        * assert (r = (Some (im_insert i s2), 1%Z, if (amd1 <? d')%Z then d' else amd1)) by congruence. subst. unfold Dpost. cbn [fst snd].
          assert (Mx : (amd1 <= (if (amd1 <? d')%Z then d' else amd1))%Z /\ (d' <= (if (amd1 <? d')%Z then d' else amd1))%Z /\ ((if (amd1 <? d')%Z then d' else amd1) <= Z.of_nat abs)%Z)
            by (destruct (Z.ltb_spec amd1 d'); lia).
          destruct Mx as [M1 [M2 M3]]. revert M1 M2 M3. generalize (if (amd1 <? d')%Z then d' else amd1). intros M M1 M2 M3.
          split; [exact M3|]. intros t Ht. assert (t = im_insert i s2) by congruence. subst t.
          assert (Hin : incl s2 (im_insert i s2)) by (unfold im_insert; destruct (im_mem i s2); [apply incl_refl | apply incl_tl, incl_refl]).
          assert (HI : defs s2 M) by (eapply defs_amd; [exact M1 | now apply P2]).
          intros j Hj.
          assert (Hj' : j = i \/ In j s2) by (unfold im_insert in Hj; destruct (im_mem i s2); [now right | destruct Hj as [<-|Hj]; [now left | now right]]).
          destruct Hj' as [->|Hj'].
          -- split; [lia|]. exists x. split; [exact E0|]. intros T p f HT HiT Hp. apply (bound_mono d'); [lia|].
             eapply im_pv; [exact Hs | exact E1 | exact HT | eapply incl_tran; eassumption | exact Hp].
          -- destruct (HI j Hj') as [A1 [e' [He' Hf]]]. split; [exact A1|]. exists e'. split; [exact He'|].
             intros T p f HT HiT Hp. eapply Hf; [exact HT | eapply incl_tran; eassumption | exact Hp].
        * assert (r = (Some s2, d', amd1)) by congruence. subst. split; [exact P1 | exact P2].
      + assert (r = (None, (-1)%Z, amd1)) by congruence. subst. split; [exact P1|]. intros t Ht. discriminate Ht.
  Qed.
End Im.

Theorem calculate_ok tbl fuel e max_deg s q n leaf : calculate_im_pols fuel tbl e max_deg = Ok (Some s, q) -> 1 <= n -> leaf_le n leaf ->
  (-1 <= q)%Z /\ (q + 1 <= Z.of_nat max_deg)%Z /\
  (forall p f, pval tbl leaf s p e f -> poly_le (Z.to_nat (q + 1) * n) f) /\
  (forall i, In i s -> (1 <= q + 1)%Z /\ exists e', nth_error tbl i = Some e' /\ forall p f, pval tbl leaf s p e' f -> poly_le (Z.to_nat (q + 1) * n) f).
Proof.
  unfold calculate_im_pols. intros H Hn Hl. step H. destruct a as [[re rd] amd]. assert (re = Some s) by congruence. assert (q = (Z.max rd amd - 1)%Z) by congruence. subst.
  pose proof (valid_nil tbl max_deg) as VN. destruct (VC tbl max_deg fuel) as [HV _]. destruct (HV _ _ _ _ _ VN E) as [A B]. cbn [fst snd] in A, B.
  destruct (B s eq_refl) as [Vs [_ [D _]]].
  assert (DN : defs tbl max_deg n leaf [] 0%Z) by (intros i []).
  destruct (im_defs tbl max_deg n leaf Hn Hl fuel _ _ _ _ _ VN DN ltac:(lia) E) as [P1 P2]. cbn [fst snd] in P1, P2.
  replace (Z.max rd amd - 1 + 1)%Z with (Z.max rd amd) by lia.
  split; [lia|]. split; [lia|]. split.
  - intros p f Hp. apply (bound_mono n Hn rd); [lia|]. eapply im_pv; [exact Hn | exact Hl | exact VN | exact E | exact Vs | apply incl_refl | exact Hp].
  - intros i Hi. destruct (P2 s eq_refl i Hi) as [A1 [e' [He' Hf]]]. split; [lia|]. exists e'. split; [exact He'|].
    intros p f Hp. apply (bound_mono n Hn amd); [lia|]. eapply Hf; [exact Vs | apply incl_refl | exact Hp].
Qed.
Theorem choose_ok tbl fuel c max_deg s q n leaf : choose_im fuel tbl c max_deg = Ok (s, q) -> 1 <= n -> leaf_le n leaf ->
  (s = [] /\ q = 0%Z) \/
  ((0 <= q)%Z /\ (q + 1 <= Z.of_nat max_deg)%Z /\
   (forall p f, pval tbl leaf s p c f -> poly_le (Z.to_nat (q + 1) * n) f) /\
   (forall i, In i s -> exists e', nth_error tbl i = Some e' /\ forall p f, pval tbl leaf s p e' f -> poly_le (Z.to_nat (q + 1) * n) f)).
Proof.
  unfold choose_im. intros H Hn Hl.
  assert (G : forall ds st, Forall (fun d => d <= max_deg) ds ->
    ((fst st = [] /\ snd st = 0%Z) \/
     ((0 <= snd st)%Z /\ (snd st + 1 <= Z.of_nat max_deg)%Z /\
      (forall p f, pval tbl leaf (fst st) p c f -> poly_le (Z.to_nat (snd st + 1) * n) f) /\
      (forall i, In i (fst st) -> exists e', nth_error tbl i = Some e' /\ forall p f, pval tbl leaf (fst st) p e' f -> poly_le (Z.to_nat (snd st + 1) * n) f))) ->
    foldM (try_deg fuel tbl c) ds st = Ok (s, q) -> 
    ((s = [] /\ q = 0%Z) \/
     ((0 <= q)%Z /\ (q + 1 <= Z.of_nat max_deg)%Z /\
      (forall p f, pval tbl leaf s p c f -> poly_le (Z.to_nat (q + 1) * n) f) /\
      (forall i, In i s -> exists e', nth_error tbl i = Some e' /\ forall p f, pval tbl leaf s p e' f -> poly_le (Z.to_nat (q + 1) * n) f)))).
  { induction ds as [|d ds IH]; intros st Hd Hst Hf; cbn [foldM] in Hf.
    - assert (st = (s, q)) by congruence. subst. exact Hst.
    - inversion Hd as [|? ? Hd1 Hd2]; subst. step Hf. eapply IH; [exact Hd2 | | exact Hf]. clear IH Hf.
      unfold try_deg in E. step E. destruct a0 as [[t|] k]; cbn [fst snd] in E; [|assert (a = st) by congruence; now subst].
      destruct (Z.ltb_spec k 0) as [L|L]; [discriminate E|].
      destruct ((snd st =? 0)%Z || (Z.of_nat (length t) + k <? Z.of_nat (length (fst st)) + snd st)%Z); [|assert (a = st) by congruence; now subst].
      assert (a = (t, k)) by congruence. subst. cbn [fst snd]. right.
      destruct (calculate_ok tbl fuel c d t k n leaf E0 Hn Hl) as [_ [A1 [A2 A3]]]. split; [exact L|]. split; [lia|]. split; [exact A2|].
      intros i Hi. now destruct (A3 i Hi) as [_ B]. }
  eapply G; [| |exact H]; [|left; split; reflexivity]. apply Forall_forall. intros x Hx. apply in_seq in Hx. lia.
Qed.
