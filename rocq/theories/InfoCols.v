(* The columns that StarkInfo::map adds for a PIL without lookups, permutations and connections. *)
From Coq Require Import String Permutation.
From Verif Require Import Base GlModel FrField F3gModel ListAux CodegenModel CodegenProof InterpModel VerifierModel ParModel ImModel ImProof StarkModel StageModel StarkSrc StarkPoly MapModel MapProof InfoModel InfoLayout.
Open Scope nat_scope.
Open Scope list_scope.
Open Scope res_scope.

(** ** the intermediate expressions are distinct and in the table *)
Section Im.
  Variable tbl : list expr.
  Definition goods (s : list nat) : Prop := NoDup s /\ Forall (fun i => i < List.length tbl) s.
  Definition goodo (s : option (list nat)) : Prop := match s with Some l => goods l | None => True end.
  Definition goodr (x : im_res) : Prop := goodo (fst (fst x)).
  Lemma insert_good i s : i < List.length tbl -> goods s -> goods (im_insert i s).
  Proof.
    intros Hi [A B]. unfold im_insert. destruct (im_mem i s) eqn:E; [split; assumption|]. split; constructor; try assumption.
    intros Hin. unfold im_mem in E. assert (X : existsb (Nat.eqb i) s = true) by (apply existsb_exists; exists i; split; [exact Hin | apply Nat.eqb_refl]). congruence.
  Qed.
  Lemma sum_good rec l : (forall v s a x, In v l -> goodo s -> rec v s a = Ok x -> goodr x) -> forall s md amd x, goodo s -> im_sum rec l s md amd = Ok x -> goodr x.
  Proof.
    induction l as [|v l IH]; intros H s md amd x Hs E; cbn [im_sum] in E; [injection E as <-; exact Hs|].
    apply bind_ok in E. destruct E as [[[s' d] a'] [E1 E]]. eapply IH; [|exact (H v s amd _ (or_introl eq_refl) Hs E1)|exact E]. intros w s0 a0 x0 Hw. apply H. now right.
  Qed.
  Lemma split_good ra rb s m ls : (forall s l a x, goodo s -> ra s l a = Ok x -> goodr x) -> (forall s l a x, goodo s -> rb s l a = Ok x -> goodr x) -> goods s ->
    forall eb ed amd x, goodo eb -> im_split ra rb s m ls eb ed amd = Ok x -> goodr x.
  Proof.
    intros Ha Hb Hs. induction ls as [|l ls IH]; intros eb ed amd x He E; cbn [im_split] in E; [injection E as <-; exact He|].
    apply bind_ok in E. destruct E as [[[e1 d1] a1] [E1 E]]. apply bind_ok in E. destruct E as [[[e2 d2] a2] [E2 E]].
    pose proof (Ha (Some s) l amd _ Hs E1) as G1. pose proof (Hb e1 _ _ _ G1 E2) as G2.
    destruct (better e2 eb); (destruct (same_size _ s); [injection E as <-; first [exact G2 | exact He] | eapply IH; [|exact E]; first [exact G2 | exact He]]).
  Qed.
  Lemma pols_good fuel abs : forall e so m amd x, goodo so -> im_pols fuel tbl abs e so m amd = Ok x -> goodr x.
  Proof.
    induction fuel as [|fuel IH]; intros e so m amd x Hs E; cbn [im_pols] in E; [discriminate E|]. destruct so as [s|]; [|injection E as <-; exact Hs].
    destruct (e_op e); try discriminate E; try (injection E as <-; exact Hs);
      try (eapply sum_good; [|exact Hs|exact E]; intros v s0 a0 x0 _ Hs0 Ev; exact (IH _ _ _ _ _ Hs0 Ev));
      try (destruct (m <? 1); injection E as <-; [exact Coq.Init.Logic.I | exact Hs]).
    - apply bind_ok in E. destruct E as [a [_ E]]. destruct (is_numlike a); [apply bind_ok in E; destruct E as [b [_ E]]; exact (IH _ _ _ _ _ Hs E)|].
      apply bind_ok in E. destruct E as [b [_ E]]. destruct (is_numlike b); [exact (IH _ _ _ _ _ Hs E)|]. apply bind_ok in E. destruct E as [h [_ E]].
      destruct (h <=? Z.of_nat m)%Z; [injection E as <-; exact Hs|]. eapply split_good; [| |exact Hs| |exact E]; [intros s0 l0 a0 x0 H0; apply IH, H0 | intros s0 l0 a0 x0 H0; apply IH, H0 | exact Coq.Init.Logic.I].
    - destruct (m <? 1); [injection E as <-; exact Coq.Init.Logic.I|]. apply bind_ok in E. destruct E as [i [_ E]]. destruct (im_mem i s); [injection E as <-; exact Hs|].
      apply bind_ok in E. destruct E as [y [Ey E]]. apply bind_ok in E. destruct E as [[[s1 d] a1] [E1 E]]. pose proof (IH _ _ _ _ _ Hs E1) as G1.
      assert (Hi : i < List.length tbl). { unfold vget in Ey. apply nth_error_Some. destruct (nth_error tbl i); [discriminate | discriminate Ey]. }
      destruct s1 as [s2|]; [|injection E as <-; exact Coq.Init.Logic.I]. destruct (Z.of_nat m <? d)%Z; injection E as <-; [exact (insert_good i s2 Hi G1) | exact G1].
  Qed.
  Lemma choose_good fuel c md s q : choose_im fuel tbl c md = Ok (s, q) -> goods s.
  Proof.
    unfold choose_im. assert (G : forall l st r, goods (fst st) -> foldM (try_deg fuel tbl c) l st = Ok r -> goods (fst r)).
    { induction l as [|d l IH]; intros st r Hs E; cbn [foldM] in E; [injection E as <-; exact Hs|]. apply bind_ok in E. destruct E as [st' [E1 E]]. eapply IH; [|exact E].
      unfold try_deg in E1. apply bind_ok in E1. destruct E1 as [y [E2 E1]]. unfold calculate_im_pols in E2. apply bind_ok in E2. destruct E2 as [[[re rd] am] [E2 E3]].
      pose proof (pols_good _ _ _ _ _ _ _ (conj (NoDup_nil _) (Forall_nil _) : goodo (Some [])) E2) as G2. apply (f_equal (fun z => match z with Ok v => fst v | _ => None end)) in E3. cbn [fst] in E3. rewrite <- E3 in E1.
      destruct re as [s'|]; [|injection E1 as <-; exact Hs]. destruct (snd y <? 0)%Z; [discriminate E1|]. destruct (_ || _); injection E1 as <-; [exact G2 | exact Hs]. }
    intros E. exact (G _ ([], 0%Z) _ (conj (NoDup_nil _) (Forall_nil _)) E).
  Qed.
  Lemma nins_perm n l : Permutation (nins n l) (n :: l).
  Proof. induction l as [|m l IH]; cbn [nins]; [constructor; constructor|]. destruct (n <=? m); [apply Permutation_refl|]. rewrite IH. apply perm_swap. Qed.
  Lemma nsort_perm l : Permutation (nsort l) l.
  Proof. induction l as [|n l IH]; cbn [nsort]; [constructor|]. rewrite nins_perm, IH. apply Permutation_refl. Qed.
  Lemma im_facts fuel ids ncm md ce : gen_constraint fuel tbl ids ncm md = Ok ce ->
    NoDup (map fst (ce_im ce)) /\ Forall (fun i => i < List.length tbl) (map fst (ce_im ce)) /\ map snd (ce_im ce) = seq ncm (List.length (ce_im ce)) /\
    ce_qs ce = seq (ncm + List.length (ce_im ce)) (List.length (ce_qs ce)).
  Proof.
    intros H. destruct (gen_constraint_inv _ _ _ _ _ _ H) as [s [q [c [H1 [H2 [_ [_ [_ [H6 _]]]]]]]]]. destruct (choose_good _ _ _ _ _ H1) as [A B].
    assert (Es : map fst (ce_im ce) = nsort s /\ map snd (ce_im ce) = seq ncm (List.length s) /\ List.length (ce_im ce) = List.length s).
    { rewrite H2. assert (G : forall (l : list nat) a, map fst (combine l (seq a (List.length l))) = l /\ map snd (combine l (seq a (List.length l))) = seq a (List.length l) /\ List.length (combine l (seq a (List.length l))) = List.length l).
      { clear. induction l as [|x l IH]; intros a; [cbn; auto|]. destruct (IH (S a)) as [I1 [I2 I3]]. cbn [List.length seq combine map fst snd]. rewrite I1, I2, I3. auto. }
      rewrite <- (nsort_len s). apply G. }
    destruct Es as [E1 [E2 E3]]. rewrite E1, E2, E3. split; [exact (Permutation_NoDup (Permutation_sym (nsort_perm s)) A)|].
    split; [apply Forall_forall; intros i Hi; apply (proj1 (nsort_in s i)) in Hi; exact (proj1 (Forall_forall _ _) B i Hi)|]. split; [reflexivity|].
    rewrite H6, seq_length. reflexivity.
  Qed.
End Im.


(** ** expressions of a PIL *)
(* the operations of pilcom, with the arguments they need, over nexp expressions, ncm committed and nconst constant columns and npub publics *)
Definition number_ok (v : option Z) : Prop := exists x, number_ref v = Ok x.
Definition pil_op (nexp ncm nconst npub : nat) (e : expr) : Prop :=
  match e_op e with
  | OAdd | OSub | OMul => 2 <= List.length (e_values e)
  | ONeg => True
  | OAddc | OMulc => forall k, e_const e = Some k -> number_ok (Some k)
  | OCm => forall i, e_id e = Some i -> i < ncm
  | OConst => forall i, e_id e = Some i -> i < nconst
  | OExp => forall i, e_id e = Some i -> i < nexp
  | OPublic => forall i, e_id e = Some i -> i < npub
  | ONumber => number_ok (e_value e)
  | _ => False
  end.
Inductive pil_expr (nexp ncm nconst npub : nat) (e : expr) : Prop :=
  PE : pil_op nexp ncm nconst npub e -> Forall (pil_expr nexp ncm nconst npub) (e_values e) -> pil_expr nexp ncm nconst npub e.
Lemma zero_number : number_ok (Some 0%Z).
Proof. eexists. reflexivity. Qed.
Lemma pe_wf n m c b e : pil_expr n m c b e -> wf_e e.
Proof.
  induction e as [op id next value values k kp IH] using expr_ind'. intros [Ho Hv]. constructor.
  - unfold arity_ok. unfold pil_op in Ho. destruct (e_op _); try exact Ho; try exact Coq.Init.Logic.I. destruct Ho.
  - cbn [e_values] in *. clear -IH Hv. induction IH as [|x l Hx _ IHl]; constructor; [apply Hx; exact (Forall_inv Hv) | apply IHl; exact (Forall_inv_tail Hv)].
Qed.
Definition plain_node (nexp ncm nconst npub : nat) (r : node) : Prop :=
  match n_ty r with
  | Ncm => n_id r < ncm | Nconst => n_id r < nconst | Nexp => n_id r < nexp | Npublic => n_id r < npub
  | Nnumber => number_ok (n_value r)
  | _ => False
  end.
Lemma pe_labs n m c b e : pil_expr n m c b e -> forall p, labs (plain_node n m c b) false p e.
Proof.
  induction e as [op id next value values k kp IH] using expr_ind'. intros [Ho Hv] p. constructor.
  - unfold lab. unfold pil_op in Ho. destruct (e_op _); try exact Ho; try exact Coq.Init.Logic.I; try (destruct Ho; fail). exact zero_number.
  - cbn [e_values] in *. clear -IH Hv. induction IH as [|x l Hx _ IHl]; constructor; [apply Hx; exact (Forall_inv Hv) | apply IHl; exact (Forall_inv_tail Hv)].
Qed.
Lemma pe_refs n m c b e : pil_expr n m c b e -> forall p k, In k (exp_refs p e) -> snd k < n.
Proof.
  induction e as [op id next value values k kp IH] using expr_ind'. intros [Ho Hv] p q Hq. rewrite exp_refs_eq in Hq. cbn [e_op e_id e_next e_values] in Hq. apply in_app_or in Hq. destruct Hq as [Hq|Hq].
  - unfold pil_op in Ho. cbn [e_op e_id] in Ho. destruct op; try destruct Hq. destruct id as [i|]; [|destruct Hq]. destruct Hq as [<-|[]]. exact (Ho i eq_refl).
  - cbn [e_values] in Hv. clear -IH Hv Hq. induction IH as [|x l Hx _ IHl]; [destruct Hq|]. cbn [exps_refs] in Hq. apply in_app_or in Hq. destruct Hq as [Hq|Hq]; [exact (Hx (Forall_inv Hv) p q Hq) | exact (IHl (Forall_inv_tail Hv) Hq)].
Qed.

(** ** dimensions *)
Lemma go_one f l : (forall x d, In x l -> f x = Ok d -> d = 1) -> forall d, dims_go f l 1 = Ok d -> d = 1.
Proof.
  induction l as [|x l IH]; intros H d E; cbn [dims_go] in E; [congruence|]. apply bind_ok in E. destruct E as [k [E1 E]]. rewrite (H x k (or_introl eq_refl) E1) in E. cbn [Nat.ltb Nat.leb] in E.
  apply IH; [|exact E]. intros y d' Hy. apply H. now right.
Qed.
Lemma go_le3 f l : (forall x d, In x l -> f x = Ok d -> d <= 3) -> forall md d, md <= 3 -> dims_go f l md = Ok d -> d <= 3.
Proof.
  induction l as [|x l IH]; intros H md d Hm E; cbn [dims_go] in E; [congruence|]. apply bind_ok in E. destruct E as [k [E1 E]]. pose proof (H x k (or_introl eq_refl) E1) as Hk.
  refine (IH _ _ _ _ E); [intros y d' Hy; apply H; now right | destruct (md <? k); assumption].
Qed.
Lemma dim_arith fuel tbl dims e d : get_exp_dim fuel tbl dims [] e = Ok d -> e_op e = OAdd \/ e_op e = OSub \/ e_op e = OMul \/ e_op e = OMuladd \/ e_op e = OAddc \/ e_op e = OMulc \/ e_op e = ONeg ->
  exists f, fuel = S f /\ dims_go (get_exp_dim f tbl dims []) (e_values e) 1 = Ok d.
Proof. intros H Ho. destruct fuel as [|f]; [discriminate H|]. exists f. split; [reflexivity|]. rewrite get_exp_dim_eq in H by exact Ho. exact H. Qed.
Lemma dim_le3 tbl dims : Forall (fun d => d <= 3) dims -> forall fuel e d, get_exp_dim fuel tbl dims [] e = Ok d -> d <= 3.
Proof.
  intros HF. induction fuel as [|fuel IH]; intros e d H; [discriminate H|]. destruct (e_op e) eqn:Eo;
    try (rewrite get_exp_dim_eq in H by (rewrite Eo; tauto); eapply go_le3; [|exact (le_S _ _ (le_S _ _ (le_n 1)))|exact H]; intros x d' _; apply IH);
    cbn [get_exp_dim] in H; rewrite Eo in H; try discriminate H; try (injection H as <-; lia).
  - apply bind_ok in H. destruct H as [i [_ H]]. unfold vget in H. destruct (nth_error dims i) as [x|] eqn:E; [|discriminate H]. injection H as ->. exact (proj1 (Forall_forall _ _) HF d (nth_error_In _ _ E)).
  - apply bind_ok in H. destruct H as [i [_ H]]. apply bind_ok in H. destruct H as [x [_ H]]. exact (IH _ _ H).
  - apply bind_ok in H. destruct H as [i [_ H]]. destruct i; discriminate H.
Qed.
Section Dim.
  Variables (tbl ext : list expr) (ncm nconst npub : nat).
  Local Notation pe := (pil_expr (List.length tbl) ncm nconst npub).
  Hypothesis Htbl : Forall pe tbl.
  Definition ones (n : nat) (dims : list nat) : Prop := forall i, i < n -> nth_error dims i = Some 1.
  Lemma dim_plain dims fuel : ones ncm dims -> forall e d, pe e -> get_exp_dim fuel (tbl ++ ext) dims [] e = Ok d -> d = 1.
  Proof.
    intros Hone. induction fuel as [|fuel IH]; intros e d [Ho Hv] H; [discriminate H|]. unfold pil_op in Ho. destruct (e_op e) eqn:Eo; try (destruct Ho; fail);
      try (rewrite get_exp_dim_eq in H by (rewrite Eo; tauto); eapply go_one; [|exact H]; intros x d' Hx; apply IH; exact (proj1 (Forall_forall _ _) Hv x Hx));
      cbn [get_exp_dim] in H; rewrite Eo in H; try discriminate H; try (injection H as <-; reflexivity).
    - destruct (e_id e) as [i|] eqn:Ei; [|discriminate H]. cbn [CodegenModel.unwrap bind] in H. unfold vget in H. rewrite (Hone i (Ho i eq_refl)) in H. congruence.
    - destruct (e_id e) as [i|] eqn:Ei; [|discriminate H]. cbn [CodegenModel.unwrap bind] in H. pose proof (Ho i eq_refl) as Li. unfold vget in H. rewrite nth_error_app1 in H by exact Li.
      destruct (nth_error tbl i) as [x|] eqn:Ex; [|discriminate H]. cbn [bind] in H. eapply IH; [|exact H]. exact (proj1 (Forall_forall _ _) Htbl x (nth_error_In _ _ Ex)).
  Qed.

  (* the terms of the constraint and their sum *)
  Definition joins (ts : list expr) (c : expr) : expr := fold_left join_vc ts c.
  Lemma joins_form ts : forall c, Forall (fun e => is_nop e = false) ts -> (exists c' e, c = E_add (E_mul (E_challenge 4) c') e) -> exists c' e, joins ts c = E_add (E_mul (E_challenge 4) c') e.
  Proof. induction ts as [|t ts IH]; intros c H Hc; [exact Hc|]. cbn [joins fold_left]. apply IH; [exact (Forall_inv_tail H)|]. destruct Hc as [c' [e ->]]. unfold join_vc. cbn [is_nop E_add E_new e_op]. eauto. Qed.
  Lemma joins_cases ts : Forall (fun e => is_nop e = false) ts ->
    (ts = [] /\ joins ts E_nop = E_nop) \/ (exists t, ts = [t] /\ joins ts E_nop = t) \/ (2 <= List.length ts /\ exists c e, joins ts E_nop = E_add (E_mul (E_challenge 4) c) e).
  Proof.
    intros H. destruct ts as [|a [|b ts]]; [left; auto | right; left; exists a; auto | right; right]. split; [cbn; lia|].
    cbn [joins fold_left]. apply joins_form; [exact (Forall_inv_tail (Forall_inv_tail H))|]. unfold join_vc at 2. cbn [is_nop E_nop E_new e_op].
    unfold join_vc. rewrite (Forall_inv H). eauto.
  Qed.
  Lemma joined_terms im c0 c : joined tbl im c0 = Ok c -> exists es, Forall2 (fun kc e => nth_error tbl (fst kc) = Some e) im es /\
    c = joins (map (fun ke => E_sub (snd ke) (E_cm (snd (fst ke)) false)) (combine im es)) c0.
  Proof.
    unfold joined. revert c0. induction im as [|kc im IH]; intros c0 H; cbn [foldM] in H; [injection H as <-; exists []; split; [constructor | reflexivity]|].
    apply bind_ok in H. destruct H as [c1 [H1 H]]. apply bind_ok in H1. destruct H1 as [e [He H1]]. destruct (IH c1 H) as [es [A B]].
    exists (e :: es). split; [constructor; [unfold vget in He; destruct (nth_error tbl (fst kc)); congruence | exact A]|]. rewrite B. cbn [combine map joins fold_left fst snd]. injection H1 as <-. reflexivity.
  Qed.
  Lemma dim_constraint fuel ids im c dims q : Forall (fun i => i < List.length tbl) ids -> joined tbl im (identities ids) = Ok c -> map snd im = seq ncm (List.length im) ->
    ones (ncm + List.length im) dims -> Forall (fun d => d <= 3) dims -> get_exp_dim fuel (tbl ++ ext) dims [] c = Ok q ->
    q = 3 \/ q = 1 /\ List.length ids + List.length im <= 1.
  Proof.
    intros Hi Hj Hs H1 H3 Hq. destruct (joined_terms _ _ _ Hj) as [es [A B]].
    set (ts := map (fun i => E_exp i false) ids ++ map (fun ke : nat * nat * expr => E_sub (snd ke) (E_cm (snd (fst ke)) false)) (combine im es)).
    assert (Ec : c = joins ts E_nop).
    { rewrite B. unfold ts, joins, identities. rewrite fold_left_app. f_equal. clear. generalize E_nop. induction ids as [|i ids IH]; intros c; [reflexivity|]. cbn [map fold_left]. apply IH. }
    assert (Hl : List.length ts = List.length ids + List.length im). { unfold ts. rewrite app_length, !map_length, combine_length. assert (List.length es = List.length im) by (clear -A; induction A; cbn; congruence). lia. }
    assert (Hn : Forall (fun e => is_nop e = false) ts). { apply Forall_forall. intros x Hx. unfold ts in Hx. apply in_app_or in Hx. destruct Hx as [Hx|Hx]; apply in_map_iff in Hx; destruct Hx as [y [<- _]]; reflexivity. }
    destruct (joins_cases ts Hn) as [[-> E]|[[t [Et E]]|[H2 [c' [e E]]]]]; rewrite <- Ec in E; subst c.
    - rewrite E in Hq. destruct fuel; discriminate Hq.
    - rewrite E in Hq. right. split; [|rewrite <- Hl, Et; cbn; lia].
      assert (Ht : In t ts) by (rewrite Et; now left). unfold ts in Ht. apply in_app_or in Ht. destruct Ht as [Ht|Ht]; apply in_map_iff in Ht; destruct Ht as [y [<- Hy]].
      + eapply (dim_plain dims fuel) with (e := E_exp y false); [|constructor; [|constructor]|exact Hq].
        * intros i Hlt. apply H1. lia.
        * intros i [= <-]. exact (proj1 (Forall_forall _ _) Hi y Hy).
      + destruct (dim_arith _ _ _ _ _ Hq ltac:(cbn; tauto)) as [f [_ Hg]]. cbn [E_sub E_new e_values] in Hg. eapply go_one; [|exact Hg].
        intros x d [<-|[<-|[]]] Hd.
        * eapply (dim_plain dims f); [intros i Hlt; apply H1; lia| |exact Hd]. destruct y as [[k z] w]. cbn [snd].
          assert (Hw : exists k, nth_error tbl k = Some w). { apply in_combine_r in Hy. clear -A Hy. induction A as [|a b l r Hab _ IH]; [destruct Hy|]. destruct Hy as [<-|Hy]; [eauto | exact (IH Hy)]. }
          destruct Hw as [k' Hw]. exact (proj1 (Forall_forall _ _) Htbl w (nth_error_In _ _ Hw)).
        * destruct f; [discriminate Hd|]. cbn [get_exp_dim E_cm E_new e_op e_id] in Hd. destruct y as [[k z] w]. cbn [fst snd] in Hd. apply in_combine_l in Hy. apply (in_map snd) in Hy. rewrite Hs in Hy. apply in_seq in Hy. cbn [snd] in Hy.
          cbn in Hd. unfold vget in Hd. rewrite (H1 z) in Hd by lia. congruence.
    - left. rewrite E in Hq. pose proof (dim_le3 _ _ H3 _ _ _ Hq) as Hle. destruct (dim_arith _ _ _ _ _ Hq ltac:(cbn; tauto)) as [f [_ Hg]]. cbn [E_add E_new e_values] in Hg.
      destruct (dims_go_le _ _ _ _ Hg) as [_ Hx]. destruct (Hx _ (or_introl eq_refl)) as [k [Hk Hkq]]. destruct (dim_arith _ _ _ _ _ Hk ltac:(cbn; tauto)) as [f' [_ Hm]]. cbn [E_mul E_new e_values] in Hm.
      destruct (dims_go_le _ _ _ _ Hm) as [_ Hy]. destruct (Hy _ (or_introl eq_refl)) as [k' [Hk' Hkk]]. destruct f'; [discriminate Hk'|]. cbn in Hk'. injection Hk' as <-. lia.
  Qed.
End Dim.

(** ** the columns *)
Record cstate (k : cols) (P : list pol) (c : nat) : Prop := {
  cs_pols : co_pols k = P; cs_len : List.length P = 2 * c;
  cs_n : co_n k = map (fun i => 2 * i) (seq 0 c); cs_2ns : co_2ns k = map (fun i => 2 * i + 1) (seq 0 c);
  cs_tmp : co_tmp k = []; cs_texp : co_texp k = []; cs_le : Forall (fun d => d <= 3) (co_dims k) }.
Lemma add_state a b i d k P c k' : cstate k P c -> d <= 3 -> add_cm a b i d k = Ok k' ->
  cstate k' (P ++ [mkPT a 0 d; mkPT b 0 d]) (c + 1) /\ nth_error (co_dims k') i = Some d /\ forall j, j <> i -> nth_error (co_dims k') j = nth_error (co_dims k) j.
Proof.
  intros [A B C D E F G] Hd H. unfold add_cm in H. apply bind_ok in H. destruct H as [l [Hl H]]. injection H as <-.
  assert (Hi : i < List.length (co_dims k)). { destruct (Nat.ltb_spec i (List.length (co_dims k))) as [|X]; [assumption|]. rewrite (vset_oob _ _ d X) in Hl. discriminate Hl. }
  destruct (vset_ok (co_dims k) i d Hi) as [l' [E1 [E2 [E3 E4]]]]. assert (l' = l) by congruence. subst l'.
  split; [|split; [exact E3 | exact E4]]. constructor; cbn [co_pols co_n co_2ns co_tmp co_texp co_dims].
  - now rewrite A.
  - rewrite app_length, B. cbn. lia.
  - rewrite C, A, B, seq_app, map_app. reflexivity.
  - rewrite D, A, B, seq_app, map_app. reflexivity.
  - exact E.
  - exact F.
  - apply Forall_forall. intros x Hx. apply In_nth_error in Hx. destruct Hx as [j Hj]. destruct (Nat.eq_dec j i) as [->|Hn].
    + assert (x = d) by congruence. subst x. exact Hd.
    + rewrite (E4 j Hn) in Hj. exact (proj1 (Forall_forall _ _) G x (nth_error_In _ _ Hj)).
Qed.
Lemma cm1_state n : forall k a P c k', cstate k P c -> (forall i, i < a -> nth_error (co_dims k) i = Some 1) -> foldM (fun k i => add_cm "cm1_n" "cm1_2ns" i 1 k) (seq a n) k = Ok k' ->
  cstate k' (P ++ pairs "cm1_n" "cm1_2ns" 1 n) (c + n) /\ ones (a + n) (co_dims k').
Proof.
  induction n as [|n IH]; intros k a P c k' S1 H1 H; cbn [seq foldM] in H.
  - injection H as <-. change (pairs "cm1_n" "cm1_2ns" 1 0) with (@nil pol). rewrite app_nil_r, !Nat.add_0_r. split; [exact S1 | exact H1].
  - apply bind_ok in H. destruct H as [k1 [E1 H]]. destruct (add_state _ _ _ _ _ _ _ _ S1 (le_S _ _ (le_S _ _ (le_n 1))) E1) as [A [B C]].
    destruct (fun X => IH k1 (S a) _ _ k' A X H) as [D E].
    + intros i Hi. destruct (Nat.eq_dec i a) as [->|Hn]; [exact B|]. rewrite (C i Hn). apply H1. lia.
    + replace (c + S n) with (c + 1 + n) by lia. replace (a + S n) with (S a + n) by lia. split; [|exact E]. rewrite <- app_assoc in D. exact D.
Qed.
Lemma q_state o d n : d <= 3 -> forall k a P c k', cstate k P c -> foldM (fun k i => add_cm "cm4_n" "cm4_2ns" (o + i) d k) (seq a n) k = Ok k' -> cstate k' (P ++ pairs "cm4_n" "cm4_2ns" d n) (c + n).
Proof.
  intros Hd. induction n as [|n IH]; intros k a P c k' S1 H; cbn [seq foldM] in H.
  - injection H as <-. change (pairs "cm4_n" "cm4_2ns" d 0) with (@nil pol). rewrite app_nil_r, Nat.add_0_r. exact S1.
  - apply bind_ok in H. destruct H as [k1 [E1 H]]. destruct (add_state _ _ _ _ _ _ _ _ S1 Hd E1) as [A _].
    pose proof (IH k1 (S a) _ _ _ A H) as D. replace (c + S n) with (c + 1 + n) by lia. rewrite <- app_assoc in D. exact D.
Qed.
Section Map.
  Variables (tbl ext : list expr) (ncm nconst npub : nat).
  Local Notation pe := (pil_expr (List.length tbl) ncm nconst npub).
  Hypothesis Htbl : Forall pe tbl.
  Lemma im_state fuel ids : forall k a P c k', cstate k P c -> ones (ncm + a) (co_dims k) -> Forall (fun i => i < List.length tbl) ids ->
    foldM (map_im fuel (tbl ++ ext) ncm 0) (combine (seq a (List.length ids)) ids) k = Ok k' ->
    cstate k' (P ++ pairs "cm3_n" "cm3_2ns" 1 (List.length ids)) (c + List.length ids) /\ ones (ncm + a + List.length ids) (co_dims k').
  Proof.
    induction ids as [|e ids IH]; intros k a P c k' S1 H1 Hi H; cbn [List.length seq combine foldM] in H |- *.
    - injection H as <-. change (pairs "cm3_n" "cm3_2ns" 1 0) with (@nil pol). rewrite app_nil_r, !Nat.add_0_r. split; [exact S1 | exact H1].
    - apply bind_ok in H. destruct H as [k1 [E1 H]]. unfold map_im in E1. apply bind_ok in E1. destruct E1 as [d [Ed E1]]. apply bind_ok in E1. destruct E1 as [k2 [E2 E1]].
      assert (d = 1).
      { unfold dim_of in Ed. apply bind_ok in Ed. destruct Ed as [x [Ex Ed]]. pose proof (Forall_inv Hi) as He. cbn beta in He. unfold vget in Ex. rewrite nth_error_app1 in Ex by exact He.
        destruct (nth_error tbl e) as [y|] eqn:Ey; [|discriminate Ex]. injection Ex as ->.
        eapply (dim_plain tbl ext ncm nconst npub Htbl (co_dims k) fuel); [|exact (proj1 (Forall_forall _ _) Htbl x (nth_error_In _ _ Ey))|exact Ed]. intros i Hlt. apply H1. lia. }
      subst d. rewrite Nat.add_0_r in E2. destruct (add_state _ _ _ _ _ _ _ _ S1 (le_S _ _ (le_S _ _ (le_n 1))) E2) as [A [B C]]. injection E1 as <-.
      match type of H with foldM _ _ ?kk = _ => set (k3 := kk) in H end.
      assert (A' : cstate k3 (P ++ [mkPT "cm3_n" 0 1; mkPT "cm3_2ns" 0 1]) (c + 1)) by (destruct A; constructor; assumption).
      destruct (fun X => IH k3 (S a) _ _ k' A' X (Forall_inv_tail Hi) H) as [D E].
      + intros i Hlt. unfold k3. cbn [co_dims]. destruct (Nat.eq_dec i (ncm + a)) as [->|Hn]; [exact B|]. rewrite (C i Hn). apply H1. lia.
      + replace (c + S (List.length ids)) with (c + 1 + List.length ids) by lia. replace (ncm + a + S (List.length ids)) with (ncm + S a + List.length ids) by lia. split; [|exact E]. rewrite <- app_assoc in D. exact D.
  Qed.
  Lemma map_plain fuel ids im c qd k q : ext = [c] -> Forall (fun i => i < List.length tbl) ids -> joined tbl im (identities ids) = Ok c -> map snd im = seq ncm (List.length im) -> Forall (fun i => i < List.length tbl) (map fst im) ->
    map_cols fuel (tbl ++ ext) im ncm [] [] [] (List.length tbl) qd = Ok (k, q) ->
    (q = 3 \/ q = 1 /\ List.length ids + List.length im <= 1) /\ co_tmp k = [] /\ co_texp k = [] /\
    co_n k = map (fun i => 2 * i) (seq 0 (ncm + List.length im + qd)) /\ co_2ns k = map (fun i => 2 * i + 1) (seq 0 (ncm + List.length im + qd)) /\
    co_pols k = pairs "cm1_n" "cm1_2ns" 1 ncm ++ pairs "cm3_n" "cm3_2ns" 1 (List.length im) ++ pairs "cm4_n" "cm4_2ns" q qd ++ [mkPT "q_2ns" 0 q; mkPT "f_2ns" 0 3].
  Proof.
    intros He Hi Hj Hs Hf H. unfold map_cols in H. cbn [app List.length Nat.mul Nat.add enum combine seq foldM] in H. apply bind_ok in H. destruct H as [k1 [E1 H]].
    assert (S0 : cstate (mkCo [] [] [] [] [] [] (repeat 0 (ncm + 0 + List.length im + qd))) [] 0).
    { constructor; try reflexivity. apply Forall_forall. intros x Hx. apply repeat_spec in Hx. subst x. cbn. lia. }
    destruct (cm1_state ncm _ 0 _ _ _ S0 ltac:(intros i Hlt; lia) E1) as [A1 B1]. cbn [app Nat.add] in A1, B1.
    change (bind (Ok k1) (fun k => bind (Ok k) (fun k0 => do k2 <- foldM (map_im fuel (tbl ++ ext) ncm 0) (enum (map fst im)) k0; do q_dim <- dim_of fuel (tbl ++ ext) k2 (List.length tbl);
      do k3 <- foldM (map_q ncm 0 (List.length im) q_dim) (seq 0 qd) k2; Ok (mkCo (co_pols k3 ++ [mkPT "q_2ns" 0 q_dim; mkPT "f_2ns" 0 3]) (co_n k3) (co_2ns k3) (co_tmp k3) (co_texp k3) (co_e2p k3) (co_dims k3), q_dim))) = Ok (k, q)) in H. cbn [bind] in H. apply bind_ok in H. destruct H as [k2 [E2 H]]. unfold enum in E2.
    destruct (im_state fuel (map fst im) k1 0 _ _ _ A1 ltac:(rewrite Nat.add_0_r; exact B1) Hf E2) as [A2 B2]. rewrite map_length in A2, B2. rewrite Nat.add_0_r in B2.
    apply bind_ok in H. destruct H as [q' [E3 H]]. apply bind_ok in H. destruct H as [k3 [E4 H]].
    assert (Eq : q' = q) by congruence. subst q'.
    assert (Hd : q = 3 \/ q = 1 /\ List.length ids + List.length im <= 1).
    { unfold dim_of in E3. apply bind_ok in E3. destruct E3 as [x [Ex E3]]. unfold vget in Ex. rewrite nth_error_app2, Nat.sub_diag, He in Ex by lia. cbn in Ex. injection Ex as <-.
      exact (dim_constraint tbl ext ncm nconst npub Htbl fuel ids im c (co_dims k2) q Hi Hj Hs B2 (cs_le _ _ _ A2) E3). }
    assert (A3 := q_state (ncm + 0 + List.length im) q qd ltac:(destruct Hd as [-> | [-> _]]; lia) k2 0 _ _ k3 A2 E4).
    apply (f_equal (fun z => match z with Ok v => fst v | _ => k3 end)) in H. cbn [fst] in H. subst k.
    cbn [co_tmp co_texp co_n co_2ns co_pols]. split; [exact Hd|]. split; [exact (cs_tmp _ _ _ A3)|]. split; [exact (cs_texp _ _ _ A3)|]. split; [exact (cs_n _ _ _ A3)|]. split; [exact (cs_2ns _ _ _ A3)|].
    rewrite (cs_pols _ _ _ A3), <- !app_assoc. reflexivity.
  Qed.
End Map.
