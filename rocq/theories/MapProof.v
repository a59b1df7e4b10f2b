(* Proofs about MapModel.v. *)
From Coq Require Import String Permutation.
From Verif Require Import Base GlModel FrField F3gModel ListAux ProverProof CodegenModel CodegenProof InterpModel MapModel.
Open Scope nat_scope.
Open Scope list_scope.
Open Scope res_scope.

(* ---------- accessors ---------- *)
Ltac each_name H := repeat (destruct H as [<-|H]; [|]); [..|destruct H].
Theorem index_get_set name : In name names -> forall x v, exists x', index_set x name v = Ok x' /\
  index_get x' name = Some v /\ forall other, other <> name -> index_get x' other = index_get x other.
Proof.
  intros H [a b c d e f g h t q r] v. unfold names in H.
  assert (K : forall n x', (forall other, other <> n -> index_get x' other = index_get (mkIx a b c d e f g h t q r) other) ->
     index_set (mkIx a b c d e f g h t q r) n v = Ok x' -> index_get x' n = Some v -> exists x', index_set (mkIx a b c d e f g h t q r) n v = Ok x' /\
     index_get x' n = Some v /\ forall other, other <> n -> index_get x' other = index_get (mkIx a b c d e f g h t q r) other) by (intros; eauto).
  repeat (destruct H as [<-|H]; [eapply K; [| reflexivity | reflexivity]; intros other Ho; unfold index_get; cbn [ix_cm1_n ix_cm1_2ns ix_cm2_n ix_cm2_2ns ix_cm3_n ix_cm3_2ns ix_cm4_n ix_cm4_2ns ix_tmpexp_n ix_q_2ns ix_f_2ns];
    repeat match goal with |- context [String.eqb other ?n] => destruct (String.eqb_spec other n); [congruence || reflexivity|] end; reflexivity |]).
  destruct H.
Qed.
Theorem index_unknown name : ~ In name names -> forall x v, index_get x name = None /\ index_set x name v = Panic.
Proof.
  intros H [a b c d e f g h t q r] v. unfold names in H. unfold index_get, index_set.
  assert (E : forall n, In n names -> String.eqb name n = false).
  { intros n Hn. destruct (String.eqb_spec name n) as [->|]; [contradiction | reflexivity]. }
  rewrite !E by (unfold names; cbn; tauto). split; reflexivity.
Qed.
Definition field {A} (x : index A) (name : string) : option A :=
  option_map snd (find (fun p => String.eqb (fst p) name) (combine
    ["cm1_n"; "cm1_2ns"; "cm2_n"; "cm2_2ns"; "cm3_n"; "cm3_2ns"; "cm4_n"; "cm4_2ns"; "tmpexp_n"; "q_2ns"; "f_2ns"]%string
    [ix_cm1_n x; ix_cm1_2ns x; ix_cm2_n x; ix_cm2_2ns x; ix_cm3_n x; ix_cm3_2ns x; ix_cm4_n x; ix_cm4_2ns x; ix_tmpexp_n x; ix_q_2ns x; ix_f_2ns x])).
Theorem indexvec_ok name : In name names -> name <> "f_2ns"%string -> forall x, exists l, indexvec_get x name = Ok l /\ field x name = Some l.
Proof.
  intros H Hn x. unfold names in H.
  repeat (destruct H as [<-|H]; [first [congruence | eexists; split; reflexivity]|]). destruct H.
Qed.
Theorem index_ok name : In name names -> forall x, index_get x name = field x name.
Proof. intros H x. unfold names in H. repeat (destruct H as [<-|H]; [reflexivity|]). destruct H. Qed.
Theorem indexvec_f_wrong : exists x, indexvec_get x "f_2ns" = Ok [1] /\ field x "f_2ns" = Some [2].
Proof. exists (mkIx [] [] [] [] [] [] [] [] [] [1] [2]). split; reflexivity. Qed.

(* ---------- layout ---------- *)
Definition sel (s : string) (e : nat) (x : pol) : bool := String.eqb (pt_sec x) s && (pt_dim x =? e).
Definition cells (x : pol) : list nat := seq (pt_pos x) (pt_dim x).
Definition strip (x : pol) : string * nat := (pt_sec x, pt_dim x).

Lemma assign_strip s e l : forall p, map strip (snd (assign s e p l)) = map strip l.
Proof.
  induction l as [|x l IH]; intros p; cbn [assign]; [reflexivity|].
  destruct (String.eqb (pt_sec x) s && (pt_dim x =? e)); [specialize (IH (p + e)); destruct (assign s e (p + e) l)
    | specialize (IH p); destruct (assign s e p l)]; cbn [snd map] in *; now rewrite IH.
Qed.
Lemma assign_same s e l : forall p, let r := assign s e p l in
  p <= fst r /\ flat_map cells (filter (sel s e) (snd r)) = seq p (fst r - p) /\ fst r = p + e * List.length (filter (sel s e) l).
Proof.
  induction l as [|x l IH]; intros p r; subst r; cbn [assign filter].
  - cbn. split; [lia|]. split; [now rewrite Nat.sub_diag | lia].
  - fold (sel s e x). destruct (sel s e x) eqn:E.
    + specialize (IH (p + e)). destruct (assign s e (p + e) l) as [q r'] eqn:Er. cbn [fst snd] in *. destruct IH as [A [B C]].
      cbn [filter]. assert (Es : sel s e (mkPT (pt_sec x) p (pt_dim x)) = true) by exact E. rewrite Es.
      unfold sel in E. apply andb_prop in E as [_ E]. apply Nat.eqb_eq in E.
      split; [lia|]. split; [|cbn [List.length]; lia]. cbn [flat_map]. rewrite B. unfold cells at 1. cbn [pt_pos pt_dim]. rewrite E.
      rewrite <- seq_app. f_equal. lia.
    + specialize (IH p). destruct (assign s e p l) as [q r'] eqn:Er. cbn [fst snd] in *. destruct IH as [A [B C]].
      cbn [filter]. rewrite E. auto.
Qed.
Lemma assign_other s e s' e' l : (s', e') <> (s, e) -> forall p, filter (sel s' e') (snd (assign s e p l)) = filter (sel s' e') l.
Proof.
  intros Hn. induction l as [|x l IH]; intros p; cbn [assign]; [reflexivity|].
  destruct (String.eqb (pt_sec x) s && (pt_dim x =? e)) eqn:E.
  - specialize (IH (p + e)). destruct (assign s e (p + e) l) as [q r']. cbn [snd filter] in *.
    apply andb_prop in E as [E1 E2]. apply String.eqb_eq in E1. apply Nat.eqb_eq in E2.
    assert (Hf : forall p0, sel s' e' (mkPT (pt_sec x) p0 (pt_dim x)) = false).
    { intros p0. unfold sel. cbn [pt_sec pt_dim]. destruct (String.eqb_spec (pt_sec x) s'); cbn [andb]; [|reflexivity].
      destruct (Nat.eqb_spec (pt_dim x) e'); [|reflexivity]. exfalso. apply Hn. congruence. }
    pose proof (Hf (pt_pos x)) as Hx. destruct x as [a b c]. cbn [pt_sec pt_pos pt_dim] in *. rewrite Hx, (Hf p). exact IH.
  - specialize (IH p). destruct (assign s e p l) as [q r']. cbn [snd filter] in *. rewrite IH. reflexivity.
Qed.

Definition count (s : string) (e : nat) (l : list pol) : nat := List.length (filter (sel s e) l).
Lemma count_strip s e l l' : map strip l = map strip l' -> count s e l = count s e l'.
Proof.
  unfold count. revert l'. induction l as [|x l IH]; intros [|y l'] H; try discriminate H; [reflexivity|].
  cbn [map] in H. injection H as H1 H2 H3. cbn [filter].
  assert (Hs : sel s e x = sel s e y) by (unfold sel; congruence). rewrite Hs.
  destruct (sel s e y); cbn [List.length]; now rewrite (IH l' H3).
Qed.

(* the section [s] of [l] is tiled *)
Definition tiled (s : string) (l : list pol) (w : widths) : Prop :=
  exists n, index_get (w_n w) s = Some n /\
    flat_map cells (filter (sel s 1) l ++ filter (sel s 2) l ++ filter (sel s 3) l) = seq 0 n /\
    index_get (w_n1 w) s = Some (count s 1 l) /\
    index_get (w_n3 w) s = Some ((2 * count s 2 l + 3 * count s 3 l) / 3).

Lemma map_name_ok s l w : In s names -> exists l' w', map_name (l, w) s = Ok (l', w') /\ map strip l' = map strip l /\ tiled s l' w' /\
  (forall s' e, s' <> s -> filter (sel s' e) l' = filter (sel s' e) l) /\
  (forall s', s' <> s -> index_get (w_n w') s' = index_get (w_n w) s' /\ index_get (w_n1 w') s' = index_get (w_n1 w) s' /\
     index_get (w_n3 w') s' = index_get (w_n3 w) s').
Proof.
  intros Hs. unfold map_name.
  pose proof (assign_strip s 1 l 0) as S1. pose proof (assign_same s 1 l 0) as A1. pose proof (fun s' e' H => assign_other s 1 s' e' l H 0) as O1.
  destruct (assign s 1 0 l) as [p1 l1]. cbn [fst snd] in *. destruct A1 as [A1 [B1 C1]].
  pose proof (assign_strip s 2 l1 p1) as S2. pose proof (assign_same s 2 l1 p1) as A2. pose proof (fun s' e' H => assign_other s 2 s' e' l1 H p1) as O2.
  destruct (assign s 2 p1 l1) as [p2 l2]. cbn [fst snd] in *. destruct A2 as [A2 [B2 C2]].
  pose proof (assign_strip s 3 l2 p2) as S3. pose proof (assign_same s 3 l2 p2) as A3. pose proof (fun s' e' H => assign_other s 3 s' e' l2 H p2) as O3.
  destruct (assign s 3 p2 l2) as [p3 l3]. cbn [fst snd] in *. destruct A3 as [A3 [B3 C3]].
  destruct (index_get_set s Hs (w_n1 w) p1) as [n1 [N1 [N2 N3]]]. rewrite N1. cbn [bind].
  destruct (index_get_set s Hs (w_n w) p3) as [n [M1 [M2 M3]]]. rewrite M1. cbn [bind]. rewrite M2, N2. cbn [unwrap bind].
  destruct (index_get_set s Hs (w_n3 w) ((p3 - p1) / 3)) as [n3 [K1 [K2 K3]]]. rewrite K1. cbn [bind].
  exists l3, (mkW n1 n n3). split; [reflexivity|]. split; [congruence|]. split; [|split].
  - exists p3. cbn [w_n w_n1 w_n3]. split; [exact M2|]. split; [|split].
    + rewrite !flat_map_app, B3, (O3 s 2) by congruence. rewrite B2, (O3 s 1) by congruence. rewrite (O2 s 1) by congruence. rewrite B1.
      rewrite Nat.sub_0_r. replace (seq p1 (p2 - p1) ++ seq p2 (p3 - p2)) with (seq p1 (p3 - p1)).
      * replace p3 with (p1 + (p3 - p1)) at 2 by lia. now rewrite seq_app.
      * replace (p3 - p1) with ((p2 - p1) + (p3 - p2)) by lia. rewrite seq_app. f_equal. f_equal. lia.
    + rewrite N2. f_equal. rewrite (count_strip s 1 l3 l) by congruence. unfold count. lia.
    + rewrite K2. f_equal. f_equal. rewrite (count_strip s 2 l3 l1), (count_strip s 3 l3 l2) by congruence. unfold count. lia.
  - intros s' e' Hn. rewrite O3, O2, O1 by congruence. reflexivity.
  - intros s' Hn. cbn [w_n w_n1 w_n3]. auto.
Qed.

Lemma tiled_frame s l w l' w' : (forall e, filter (sel s e) l' = filter (sel s e) l) ->
  index_get (w_n w') s = index_get (w_n w) s /\ index_get (w_n1 w') s = index_get (w_n1 w) s /\ index_get (w_n3 w') s = index_get (w_n3 w) s ->
  tiled s l w -> tiled s l' w'.
Proof.
  intros Hf [W1 [W2 W3]] [n [T1 [T2 [T3 T4]]]]. exists n. unfold count in *. rewrite W1, W2, W3, !Hf. auto.
Qed.

Lemma map_names_ok ns : NoDup ns -> incl ns names -> forall l w, exists l' w', foldM map_name ns (l, w) = Ok (l', w') /\
  map strip l' = map strip l /\ (forall s, In s ns -> tiled s l' w') /\
  (forall s e, ~ In s ns -> filter (sel s e) l' = filter (sel s e) l) /\
  (forall s, ~ In s ns -> index_get (w_n w') s = index_get (w_n w) s /\ index_get (w_n1 w') s = index_get (w_n1 w) s /\ index_get (w_n3 w') s = index_get (w_n3 w) s).
Proof.
  induction 1 as [|s ns Hn Hd IH]; intros Hi l w.
  - exists l, w. cbn [foldM]. split; [reflexivity|]. split; [reflexivity|]. split; [intros s []|]. split; auto.
  - destruct (map_name_ok s l w (Hi s (or_introl eq_refl))) as [l1 [w1 [E1 [S1 [T1 [F1 W1]]]]]].
    destruct (IH (fun x Hx => Hi x (or_intror Hx)) l1 w1) as [l2 [w2 [E2 [S2 [T2 [F2 W2]]]]]].
    exists l2, w2. cbn [foldM]. rewrite E1. cbn [bind]. split; [exact E2|]. split; [congruence|]. split; [|split].
    + intros s' [<-|Hs']; [|apply T2, Hs']. eapply tiled_frame; [intros e; apply F2, Hn | apply W2, Hn | exact T1].
    + intros s' e Hs'. rewrite F2 by (intro C; apply Hs'; now right). apply F1. intro C. apply Hs'. now left.
    + intros s' Hs'. destruct (W2 s') as [A [B C]]; [intro C; apply Hs'; now right|]. destruct (W1 s') as [A' [B' C']]; [intro C'; apply Hs'; now left|].
      repeat split; congruence.
Qed.

Lemma names_nodup : NoDup names.
Proof. unfold names. repeat (constructor; [cbn; intuition discriminate|]). constructor. Qed.

Lemma filter_dims s l : Forall (fun x => pt_dim x = 1 \/ pt_dim x = 2 \/ pt_dim x = 3) l ->
  Permutation (filter (fun x => String.eqb (pt_sec x) s) l) (filter (sel s 1) l ++ filter (sel s 2) l ++ filter (sel s 3) l).
Proof.
  induction 1 as [|x l Hx _ IH]; cbn [filter]; [constructor|].
  assert (Hs : forall e, sel s e x = String.eqb (pt_sec x) s && (pt_dim x =? e)) by reflexivity. rewrite !Hs. clear Hs.
  destruct (String.eqb (pt_sec x) s); cbn [andb]; [|exact IH].
  destruct Hx as [->|[->| ->]]; cbn [Nat.eqb app].
  - now constructor.
  - apply Permutation_cons_app. exact IH.
  - rewrite app_assoc in *. apply Permutation_cons_app. exact IH.
Qed.

Theorem map_section_ok l : Forall (fun x => pt_dim x = 1 \/ pt_dim x = 3) l ->
  exists l' w, map_section l = Ok (l', w) /\ map strip l' = map strip l /\
    forall s, In s names -> exists n, index_get (w_n w) s = Some n /\
      Permutation (flat_map cells (filter (fun x => String.eqb (pt_sec x) s) l')) (seq 0 n) /\
      index_get (w_n1 w) s = Some (count s 1 l) /\ index_get (w_n3 w) s = Some (count s 3 l).
Proof.
  intros Hd. destruct (map_names_ok names names_nodup (incl_refl _) l (mkW index_default index_default index_default)) as [l' [w [E [Hs [T _]]]]].
  exists l', w. split; [exact E|]. split; [exact Hs|]. intros s Hin. destruct (T s Hin) as [n [T1 [T2 [T3 T4]]]].
  assert (Hd' : Forall (fun x => pt_dim x = 1 \/ pt_dim x = 3) l').
  { clear -Hs Hd. revert l Hs Hd. induction l' as [|x l' IH]; intros [|y l] Hs Hd; try discriminate Hs; [constructor|].
    cbn [map] in Hs. injection Hs as H1 H2 H3. inversion Hd; subst. constructor; [unfold strip in *; congruence | eapply IH; eassumption]. }
  assert (H2 : forall m, Forall (fun x => pt_dim x = 1 \/ pt_dim x = 3) m -> filter (sel s 2) m = []).
  { induction 1 as [|x m Hx _ IH]; [reflexivity|]. cbn [filter]. unfold sel at 1.
    destruct Hx as [-> | ->]; cbn [Nat.eqb]; rewrite andb_false_r; exact IH. }
  exists n. split; [exact T1|]. split; [|split].
  - rewrite <- T2. apply Permutation_flat_map. apply filter_dims. eapply Forall_impl; [|exact Hd']. cbn. tauto.
  - rewrite T3. f_equal. now apply count_strip.
  - rewrite T4. f_equal. unfold count at 1. rewrite (H2 l' Hd'). cbn [List.length]. rewrite Nat.mul_0_r, Nat.add_0_l, Nat.mul_comm, Nat.div_mul by lia. now apply count_strip.
Qed.

Definition mem_order : list string :=
  ["cm1_n"; "cm2_n"; "cm3_n"; "cm4_n"; "tmpexp_n"; "cm1_2ns"; "cm2_2ns"; "cm3_2ns"; "cm4_2ns"; "q_2ns"; "f_2ns"]%string.
Definition get0 (x : index nat) (s : string) : nat := match index_get x s with Some v => v | None => 0 end.
Theorem offsets_ok nbits nbits_ext n : let '(off, total, deg) := map_offsets nbits nbits_ext n in
  flat_map (fun s => seq (get0 off s) (get0 deg s * get0 n s)) mem_order = seq 0 total /\
  (forall s, In s mem_order -> get0 deg s = 2 ^ (if existsb (String.eqb s) ["cm1_n"; "cm2_n"; "cm3_n"; "cm4_n"; "tmpexp_n"]%string then nbits else nbits_ext)) /\
  Permutation mem_order names.
Proof.
  unfold map_offsets. split; [|split].
  - cbn [mem_order flat_map].
    repeat match goal with |- context [get0 ?x ?s] => let v := eval cbn in (get0 x s) in progress change (get0 x s) with v end.
    generalize (2 ^ nbits). generalize (2 ^ nbits_ext). intros Nx N. rewrite app_nil_r.
    rewrite !seq_app. cbn [plus]. rewrite !app_assoc. reflexivity.
  - intros s H. cbn [mem_order] in H. repeat (destruct H as [<-|H]; [reflexivity|]). destruct H.
  - assert (H : forall a b, NoDup a -> NoDup b -> (forall x : string, In x a <-> In x b) -> Permutation a b) by (intros; now apply NoDup_Permutation).
    apply H; [|apply names_nodup|].
    + unfold mem_order. repeat (constructor; [cbn; intuition discriminate|]). constructor.
    + intros x. unfold mem_order, names. cbn [In]. tauto.
Qed.

(* ---------- dimensions ---------- *)
Lemma d3_add a b : d3 a = false -> d3 b = false -> d3 (e_add a b) = false.
Proof. intros A B. unfold e_add. rewrite A, B. reflexivity. Qed.
Lemma d3_sub a b : d3 a = false -> d3 b = false -> d3 (e_sub a b) = false.
Proof. intros A B. unfold e_sub. rewrite A, B. reflexivity. Qed.
Lemma d3_mul a b : d3 a = false -> d3 b = false -> d3 (e_mul a b) = false.
Proof. intros A B. unfold e_mul. rewrite A, B. reflexivity. Qed.
Lemma d3_neg a : d3 a = false -> d3 (e_neg a) = false.
Proof. intros A. unfold e_neg. rewrite A. reflexivity. Qed.

Fixpoint dims_go (f : expr -> res nat) (l : list expr) (md : nat) : res nat :=
  match l with [] => Ok md | x :: r => do d <- f x; dims_go f r (if md <? d then d else md) end.
Lemma get_exp_dim_eq fuel tbl cmd q2 e : e_op e = OAdd \/ e_op e = OSub \/ e_op e = OMul \/ e_op e = OMuladd \/ e_op e = OAddc \/ e_op e = OMulc \/ e_op e = ONeg ->
  get_exp_dim (S fuel) tbl cmd q2 e = dims_go (get_exp_dim fuel tbl cmd q2) (e_values e) 1.
Proof.
  intros H. cbn [get_exp_dim].
  assert (G : forall l md, (fix go (l : list expr) (md : nat) : res nat :=
             match l with [] => Ok md | x :: r => do d <- get_exp_dim fuel tbl cmd q2 x; go r (if md <? d then d else md) end) l md =
            dims_go (get_exp_dim fuel tbl cmd q2) l md).
  { induction l as [|x l IH]; intros md; cbn [dims_go]; [reflexivity|]. destruct (get_exp_dim fuel tbl cmd q2 x); cbn [bind]; auto. }
  destruct H as [->|[->|[->|[->|[->|[->| ->]]]]]]; apply G.
Qed.
Lemma dims_go_le f l : forall md d, dims_go f l md = Ok d -> md <= d /\ forall x, In x l -> exists k, f x = Ok k /\ k <= d.
Proof.
  induction l as [|x l IH]; intros md d H; cbn [dims_go] in H.
  - injection H as <-. split; [lia|]. intros x [].
  - destruct (f x) as [k| | |] eqn:E; try discriminate H. cbn [bind] in H. apply IH in H as [A B].
    destruct (Nat.ltb_spec md k) as [L|L]; (split; [lia|]); intros y [<-|Hy]; try (exists k; split; [exact E | lia]); now apply B.
Qed.

Section ExpDim.
  Variables (tbl : list expr) (rho : node -> F3G) (cmd q2 : list nat).
  Hypothesis Hcm : forall i k p, nth_error cmd i = Some k -> k <= 1 -> d3 (rho (N_new Ncm i None p)) = false.
  Hypothesis Hconst : forall i p, d3 (rho (N_new Nconst i None p)) = false.
  Hypothesis Hnum : forall v, d3 (rho (N_new Nnumber 0 v false)) = false.
  Hypothesis Hpub : forall i, d3 (rho (N_new Npublic i None false)) = false.
  Hypothesis Hx : d3 (rho (N_new Nx 0 None false)) = false.
  Hypothesis Hq : forall p i j e', nth_error q2 i = Some j -> nth_error tbl j = Some e' -> den tbl rho p e' (rho (N_new Nq i None p)).
  Theorem exp_dim_sound fuel : forall e d p v, get_exp_dim fuel tbl cmd q2 e = Ok d -> den tbl rho p e v -> d <= 1 -> d3 v = false.
  Proof.
    induction fuel as [|fuel IH]; intros e d p v H D Hd; [discriminate H|].
    assert (K : e_op e = OAdd \/ e_op e = OSub \/ e_op e = OMul \/ e_op e = OMuladd \/ e_op e = OAddc \/ e_op e = OMulc \/ e_op e = ONeg ->
      forall x w, In x (e_values e) -> den tbl rho p x w -> d3 w = false).
    { intros Ho x w Hin Dw. rewrite get_exp_dim_eq in H by exact Ho. apply dims_go_le in H as [_ H].
      destruct (H x Hin) as [k [Hk Hkd]]. eapply IH; [exact Hk | exact Dw | lia]. }
    destruct D as [p e a b r x y Ho Hv D1 D2|p e a b r x y Ho Hv D1 D2|p e a b r x y Ho Hv D1 D2|p e a b c r x y z Ho Hv D1 D2 D3
      |p e a r k x Ho Hv Hc D1|p e a r k x Ho Hv Hc D1|p e a r x Ho Hv D1|p e i e' v Ho Hi He Hp D1
      |p e i Ho Hi Hp|p e i Ho Hi Hp|p e i Ho Hi Hp|p e Ho|p e i Ho Hi|p e i Ho Hi|p e i Ho Hi|p e Ho|p e Ho|p e Ho];
    try (specialize (K ltac:(rewrite Ho; tauto)); rewrite Hv in K).
    - apply d3_add; [apply (K a) | apply (K b)]; cbn [In]; auto.
    - apply d3_sub; [apply (K a) | apply (K b)]; cbn [In]; auto.
    - apply d3_mul; [apply (K a) | apply (K b)]; cbn [In]; auto.
    - apply d3_add; [apply d3_mul; [apply (K a) | apply (K b)] | apply (K c)]; cbn [In]; auto.
    - apply d3_add; [apply (K a); cbn [In]; auto | apply Hnum].
    - apply d3_mul; [apply (K a); cbn [In]; auto | apply Hnum].
    - apply d3_neg. apply (K a); cbn [In]; auto.
    - cbn [get_exp_dim] in H. rewrite Ho, Hi in H. cbn [unwrap bind] in H.
      destruct (vget tbl i) as [e''| | |] eqn:Ev; try discriminate H. cbn [bind] in H. apply vget_inv in Ev.
      assert (e'' = e') by congruence. subst e''. eapply IH; eassumption.
    - cbn [get_exp_dim] in H. rewrite Ho, Hi in H. cbn [unwrap bind] in H. apply vget_inv in H. eapply Hcm; eassumption.
    - apply Hconst.
    - cbn [get_exp_dim] in H. rewrite Ho, Hi in H. cbn [unwrap bind] in H.
      destruct (vget q2 i) as [j| | |] eqn:Ej; try discriminate H. cbn [bind] in H. apply vget_inv in Ej.
      destruct (vget tbl j) as [e'| | |] eqn:Ee; try discriminate H. cbn [bind] in H. apply vget_inv in Ee.
      eapply IH; [exact H | eapply Hq; eassumption | exact Hd].
    - apply Hnum.
    - apply Hpub.
    - cbn [get_exp_dim] in H. rewrite Ho in H. assert (d = 3) by congruence. lia.
    - cbn [get_exp_dim] in H. rewrite Ho in H. assert (d = 3) by congruence. lia.
    - cbn [get_exp_dim] in H. rewrite Ho in H. assert (d = 3) by congruence. lia.
    - cbn [get_exp_dim] in H. rewrite Ho in H. assert (d = 3) by congruence. lia.
    - apply Hx.
  Qed.
End ExpDim.

(* the values written by straight-line code: [vals k n] is what memory holds for the reference n (not a
   temporary) when instruction k runs *)
Section CodeDim.
  Variable vals : nat -> node -> F3G.
  Definition rd (k : nat) (tmp : nat -> option F3G) (n : node) : option F3G :=
    match n_ty n with Ntmp => tmp (n_id n) | _ => Some (vals k n) end.
  Definition op_val (o : cop) (l : list (option F3G)) : option F3G :=
    match o, l with
    | CAdd, Some a :: Some b :: _ => Some (e_add a b)
    | CSub, Some a :: Some b :: _ => Some (e_sub a b)
    | CMul, Some a :: Some b :: _ => Some (e_mul a b)
    | CMuladd, Some a :: Some b :: Some c :: _ => Some (e_add (e_mul a b) c)
    | CCopy, Some a :: _ => Some a
    | _, _ => None
    end.
  Fixpoint results (k : nat) (tmp : nat -> option F3G) (l : list instr) : option (list F3G) :=
    match l with
    | [] => Some []
    | c :: r =>
        match op_val (i_op c) (map (rd k tmp) (i_src c)) with
        | Some v =>
            match results (S k) (match n_ty (i_dest c) with Ntmp => fun j => if j =? n_id (i_dest c) then Some v else tmp j | _ => tmp end) r with
            | Some vs => Some (v :: vs) | None => None end
        | None => None
        end
    end.
  Variables (cm_dim q_dim : nat -> res nat) (dim_x : nat).
  Hypothesis Hmem : forall k n d, n_ty n <> Ntmp -> get_dim cm_dim q_dim dim_x (fun _ => None) n = Ok d -> d <= 1 -> d3 (vals k n) = false.
  Lemma rd_dim k tmp td n d v : (forall j w, tmp j = Some w -> exists e, td j = Some e /\ (e <= 1 -> d3 w = false)) ->
    get_dim cm_dim q_dim dim_x td n = Ok d -> rd k tmp n = Some v -> d <= 1 -> d3 v = false.
  Proof.
    intros Ht Hg Hr Hd. destruct (ntype_eqb (n_ty n) Ntmp) eqn:E.
    - assert (En : n_ty n = Ntmp) by (destruct (n_ty n); try discriminate E; reflexivity).
      unfold rd in Hr. rewrite En in Hr. destruct (Ht _ _ Hr) as [e [He Hb]].
      unfold get_dim in Hg. rewrite En, He in Hg. cbn [unwrap bind] in Hg. destruct (e =? 0); [discriminate Hg|].
      apply Hb. assert (e = d) by congruence. lia.
    - assert (En : n_ty n <> Ntmp) by (intros En; rewrite En in E; discriminate E).
      assert (Hr' : rd k tmp n = Some (vals k n)) by (unfold rd; destruct (n_ty n); try reflexivity; congruence).
      rewrite Hr' in Hr. assert (Hv : v = vals k n) by congruence. rewrite Hv. apply (Hmem k n d En); [|exact Hd].
      unfold get_dim in *. destruct (n_ty n); try exact Hg. congruence.
  Qed.
  Theorem code_dim_sound l : forall k tmp td ds vs,
    (forall j w, tmp j = Some w -> exists e, td j = Some e /\ (e <= 1 -> d3 w = false)) ->
    code_dims cm_dim q_dim dim_x td l = Ok ds -> results k tmp l = Some vs -> Forall2 (fun d v => d <= 1 -> d3 v = false) ds vs.
  Proof.
    induction l as [|c l IH]; intros k tmp td ds vs Ht Hc Hr; cbn [code_dims results] in Hc, Hr.
    - injection Hc as <-. injection Hr as <-. constructor.
    - destruct (op_val (i_op c) (map (rd k tmp) (i_src c))) as [v|] eqn:Ev; [|discriminate Hr].
      assert (exists d r, (d <= 1 -> d3 v = false) /\ match n_ty (i_dest c) with
              | Ntmp => code_dims cm_dim q_dim dim_x (fun k => if k =? n_id (i_dest c) then Some d else td k) l
              | Nexp | Ncm | Nq | NtmpExp | Nf => code_dims cm_dim q_dim dim_x td l | _ => Panic end = Ok r /\ ds = d :: r) as [d [r [Hd [Hl ->]]]].
      { destruct (match i_op c, i_src c with
              | CMuladd, x :: y :: z :: _ => do a <- get_dim cm_dim q_dim dim_x td x; do b <- get_dim cm_dim q_dim dim_x td y; do e <- get_dim cm_dim q_dim dim_x td z; Ok (Nat.max (Nat.max a b) e)
              | CCopy, x :: _ => get_dim cm_dim q_dim dim_x td x
              | (CAdd | CSub | CMul), x :: y :: _ => do a <- get_dim cm_dim q_dim dim_x td x; do b <- get_dim cm_dim q_dim dim_x td y; Ok (Nat.max a b)
              | _, _ => Panic
              end) as [d| | |] eqn:Ed; try discriminate Hc. cbn [bind] in Hc.
        assert (R : forall n w e, get_dim cm_dim q_dim dim_x td n = Ok e -> rd k tmp n = Some w -> e <= 1 -> d3 w = false)
          by (intros; eapply rd_dim; eassumption).
        assert (D : d <= 1 -> d3 v = false).
        { clear Hc Hr IH Ht. intros Hd. destruct (i_op c).
          1-3: destruct (i_src c) as [|x [|y s]]; try discriminate Ed; cbn [map op_val] in Ev;
            destruct (rd k tmp x) as [vx|] eqn:Ex; try discriminate Ev; destruct (rd k tmp y) as [vy|] eqn:Ey; try discriminate Ev;
            destruct (get_dim cm_dim q_dim dim_x td x) as [a| | |] eqn:Ga; try discriminate Ed; cbn [bind] in Ed;
            destruct (get_dim cm_dim q_dim dim_x td y) as [b| | |] eqn:Gb; try discriminate Ed; cbn [bind] in Ed;
            assert (Nat.max a b = d) by congruence; injection Ev as <-.
          - apply d3_add; [apply (R x vx a Ga Ex) | apply (R y vy b Gb Ey)]; lia.
          - apply d3_sub; [apply (R x vx a Ga Ex) | apply (R y vy b Gb Ey)]; lia.
          - apply d3_mul; [apply (R x vx a Ga Ex) | apply (R y vy b Gb Ey)]; lia.
          - destruct (i_src c) as [|x [|y [|z s]]]; try discriminate Ed; cbn [map op_val] in Ev.
            destruct (rd k tmp x) as [vx|] eqn:Ex; try discriminate Ev; destruct (rd k tmp y) as [vy|] eqn:Ey; try discriminate Ev;
              destruct (rd k tmp z) as [vz|] eqn:Ez; try discriminate Ev.
            destruct (get_dim cm_dim q_dim dim_x td x) as [a| | |] eqn:Ga; try discriminate Ed; cbn [bind] in Ed.
            destruct (get_dim cm_dim q_dim dim_x td y) as [b| | |] eqn:Gb; try discriminate Ed; cbn [bind] in Ed.
            destruct (get_dim cm_dim q_dim dim_x td z) as [e| | |] eqn:Gc; try discriminate Ed; cbn [bind] in Ed.
            assert (Nat.max (Nat.max a b) e = d) by congruence. injection Ev as <-.
            apply d3_add; [apply d3_mul; [apply (R x vx a Ga Ex) | apply (R y vy b Gb Ey)] | apply (R z vz e Gc Ez)]; lia.
          - destruct (i_src c) as [|x s]; try discriminate Ed. cbn [map op_val] in Ev.
            destruct (rd k tmp x) as [vx|] eqn:Ex; try discriminate Ev. injection Ev as <-. exact (R x vx d Ed Ex Hd). }
        exists d.
        destruct (n_ty (i_dest c)); try discriminate Hc; cbn [bind] in Hc;
          match type of Hc with bind ?e _ = _ => destruct e as [r| | |] eqn:Er; try discriminate Hc end; cbn [bind] in Hc;
          exists r; (split; [exact D|]); (split; [first [exact Er | reflexivity] | congruence]). }
      match type of Hr with match ?e with _ => _ end = _ => destruct e as [vs'|] eqn:Ers; [|discriminate Hr] end.
      injection Hr as <-. constructor; [exact Hd|].
      destruct (n_ty (i_dest c)) eqn:En; try discriminate Hl; try (eapply IH; eassumption).
      eapply IH; [|exact Hl|exact Ers]. intros j w. cbn beta. destruct (j =? n_id (i_dest c)); [|apply Ht].
      intros Hw. assert (w = v) by congruence. subst w. eauto.
  Qed.
End CodeDim.

(* Columns: cm0 committed by the program, one grand product column (1), intermediate columns for
   expressions 0 and 1, where expression 1 multiplies the grand product by cm0. The intermediate column of
   expression 1 gets dimension 1. *)
Definition bad_tbl : list expr :=
  [E_mul (E_cm 0 false) (E_cm 0 false); E_mul (E_cm 1 false) (E_cm 0 false); E_sub (E_exp 0 false) (E_exp 1 false)].
Theorem map_dims_wrong :
  exists dims pushed, map_dims 10 bad_tbl [] 1 [] 1 [0; 1] 2 1 = Ok (dims, pushed) /\
    nth_error pushed 1 = Some 3 /\ nth_error pushed 3 = Some 1 /\
    exists rho v, (forall i k p, nth_error [1; 3] i = Some k -> k <= 1 -> d3 (rho (N_new Ncm i None p)) = false) /\
      (forall e, nth_error bad_tbl 1 = Some e -> den bad_tbl rho false e v) /\ d3 v = true.
Proof.
  eexists. eexists. split; [vm_compute; reflexivity|]. split; [reflexivity|]. split; [reflexivity|].
  exists (fun n => if n_id n =? 1 then e_ONES else e_ONE). eexists. split; [|split].
  - intros [|[|i]] k p H Hk; cbn in *; [reflexivity | injection H as <-; lia | destruct i; discriminate H].
  - intros e He. assert (e = E_mul (E_cm 1 false) (E_cm 0 false)) by (cbn in He; congruence). subst e.
    eapply (D_mul _ _ _ _ (E_cm 1 false) (E_cm 0 false) []); [reflexivity | reflexivity | |].
    + apply (D_cm _ _ _ (E_cm 1 false) 1); reflexivity.
    + apply (D_cm _ _ _ (E_cm 0 false) 0); reflexivity.
  - reflexivity.
Qed.
