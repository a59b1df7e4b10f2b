(* What the expressions generated by ArgModel.v mean on the rows of a trace. *)
From Coq Require Import Ring Field Permutation.
From Verif Require Import Base GlModel FrField F3gModel Cubic F3gProof ListAux PolyModel PolyProof CodegenModel CodegenProof StarkMath ArgModel ArgMath ArgSound ArgRows.
Open Scope nat_scope.
Open Scope list_scope.
Open Scope res_scope.
Add Ring K_ring_argg : K_ring.

(* ---- the value of an expression as an element of the field ---- *)
Section Va.
  Variables (tbl : list expr) (rho : node -> F3G).
  Definition va (p : bool) (e : expr) (x : K) : Prop := exists v, den tbl rho p e v /\ val v = x.
  Lemma va_fun p e x y : va p e x -> va p e y -> x = y.
  Proof. intros [v [D <-]] [w [D' <-]]. rewrite (den_fun tbl rho p e v D w D'). reflexivity. Qed.
  Lemma va_add p a b x y : va p a x -> va p b y -> va p (E_add a b) (kadd x y).
  Proof. intros [v [D <-]] [w [D' <-]]. exists (e_add v w). split; [|apply val_add]. exact (D_add tbl rho p (E_add a b) a b [] v w eq_refl eq_refl D D'). Qed.
  Lemma va_sub p a b x y : va p a x -> va p b y -> va p (E_sub a b) (ksub x y).
  Proof. intros [v [D <-]] [w [D' <-]]. exists (e_sub v w). split; [|apply val_sub]. exact (D_sub tbl rho p (E_sub a b) a b [] v w eq_refl eq_refl D D'). Qed.
  Lemma va_mul p a b x y : va p a x -> va p b y -> va p (E_mul a b) (kmul x y).
  Proof. intros [v [D <-]] [w [D' <-]]. exists (e_mul v w). split; [|apply val_mul]. exact (D_mul tbl rho p (E_mul a b) a b [] v w eq_refl eq_refl D D'). Qed.
  Lemma den_kept p e v : den tbl rho p e v -> den tbl rho p (kept e) v.
  Proof.
    intros D. destruct e as [op id next value values c k]. cbn [kept].
    inversion D; subst; cbn [e_op e_id e_next e_value e_values e_const] in *; subst;
    first [ solve [eapply D_add; first [reflexivity | eassumption]]
      | solve [eapply D_sub; first [reflexivity | eassumption]]
      | solve [eapply D_mul; first [reflexivity | eassumption]]
      | solve [eapply D_muladd; first [reflexivity | eassumption]]
      | solve [eapply D_addc; first [reflexivity | eassumption]]
      | solve [eapply D_mulc; first [reflexivity | eassumption]]
      | solve [eapply D_neg; first [reflexivity | eassumption]]
      | solve [eapply D_exp; first [reflexivity | eassumption]]
      | solve [refine (D_cm tbl rho p (mkE _ _ _ _ _ _ true) _ _ _ _); first [reflexivity | eassumption]]
      | solve [refine (D_const tbl rho p (mkE _ _ _ _ _ _ true) _ _ _ _); first [reflexivity | eassumption]]
      | solve [refine (D_q tbl rho p (mkE _ _ _ _ _ _ true) _ _ _ _); first [reflexivity | eassumption]]
      | solve [refine (D_public tbl rho p (mkE _ _ _ _ _ _ true) _ _ _); reflexivity]
      | solve [refine (D_challenge tbl rho p (mkE _ _ _ _ _ _ true) _ _ _); reflexivity]
      | solve [refine (D_eval tbl rho p (mkE _ _ _ _ _ _ true) _ _ _); reflexivity]
      | solve [refine (D_number tbl rho p (mkE _ _ _ _ _ _ true) _); reflexivity]
      | solve [refine (D_xdiv tbl rho p (mkE _ _ _ _ _ _ true) _); reflexivity]
      | solve [refine (D_xdivw tbl rho p (mkE _ _ _ _ _ _ true) _); reflexivity]
      | solve [refine (D_x tbl rho p (mkE _ _ _ _ _ _ true) _); reflexivity] ].
  Qed.
  Lemma va_kept p e x : va p e x -> va p (kept e) x.
  Proof. intros [v [D E]]. exists v. split; [apply den_kept; exact D|exact E]. Qed.
  Lemma va_exp p i nx e x : nth_error tbl i = Some e -> nx && p = false -> va (nx || p) e x -> va p (E_exp i nx) x.
  Proof. intros N B [v [D E]]. exists v. split; [|exact E]. exact (D_exp tbl rho p (E_exp i nx) i e v eq_refl eq_refl B N D). Qed.
  Lemma va_cm p i nx : nx && p = false -> va p (E_cm i nx) (val (rho (N_new Ncm i None (nx || p)))).
  Proof. intros B. eexists. split; [|reflexivity]. exact (D_cm tbl rho p (E_cm i nx) i eq_refl eq_refl B). Qed.
  Lemma va_const p i nx : nx && p = false -> va p (E_const i nx) (val (rho (N_new Nconst i None (nx || p)))).
  Proof. intros B. eexists. split; [|reflexivity]. exact (D_const tbl rho p (E_const i nx) i eq_refl eq_refl B). Qed.
  Lemma va_challenge p i : va p (E_challenge i) (val (rho (N_new Nchallenge i None false))).
  Proof. eexists. split; [|reflexivity]. exact (D_challenge tbl rho p (E_challenge i) i eq_refl eq_refl). Qed.
  Lemma va_number p z : va p (E_number z) (val (rho (N_new Nnumber 0 (Some z) false))).
  Proof. eexists. split; [|reflexivity]. exact (D_number tbl rho p (E_number z) eq_refl). Qed.
  Lemma va_x p : va p E_x (val (rho (N_new Nx 0 None false))).
  Proof. eexists. split; [|reflexivity]. exact (D_x tbl rho p E_x eq_refl). Qed.
  Lemma va_eq p e x y : va p e x -> x = y -> va p e y.
  Proof. intros H <-. exact H. Qed.
End Va.

(* ---- the rows of a trace: row i sees the columns of row i and of the following row, cyclically ---- *)
Record rows (n : nat) (w : K) (l1 : option nat) (ch : nat -> K) (rho : nat -> node -> F3G) : Prop := mkRows {
  r_ch : forall i c, val (rho i (N_new Nchallenge c None false)) = ch c;
  r_num : forall i z, val (rho i (N_new Nnumber 0 (Some z) false)) = kconst (fof z);
  r_cm : forall i c, i < n -> val (rho i (N_new Ncm c None true)) = val (rho (nxt n i) (N_new Ncm c None false));
  r_l1 : forall i l, i < n -> l1 = Some l -> val (rho i (N_new Nconst l None false)) = if i =? 0 then kone else kzero;
  r_x : forall i, i < n -> val (rho i (N_new Nx 0 None false)) = kpow w i
}.
Definition cmcol (rho : nat -> node -> F3G) (c i : nat) : K := val (rho i (N_new Ncm c None false)).
(* the row that a reference with prime flag p reads *)
Definition at_row (n : nat) (p : bool) (i : nat) : nat := if p then nxt n i else i.
(* expressions ids have the values F *)
Definition cols (tbl : list expr) (rho : nat -> node -> F3G) (n : nat) (p : bool) (ids : list nat) (F : nat -> list K) : Prop :=
  forall i, i < n -> Forall2 (fun j x => va tbl (rho i) p (E_exp j false) x) ids (F (at_row n p i)).
Definition selcol (tbl : list expr) (rho : nat -> node -> F3G) (n : nat) (p : bool) (s : option nat) (S : nat -> K) : Prop :=
  forall i, i < n -> match s with Some j => va tbl (rho i) p (E_exp j false) (S (at_row n p i)) | None => S (at_row n p i) = kone end.

Lemma lc_step_t tbl rho p u : va tbl rho p U u -> forall ids xs, Forall2 (fun j x => va tbl rho p (E_exp j false) x) ids xs ->
  forall acc a, is_nop acc = false -> va tbl rho p acc a ->
  va tbl rho p (fold_left (fun acc j => if is_nop acc then E_exp j false else E_add (E_mul U acc) (E_exp j false)) ids acc) (fold_left (fun s e => kadd (kmul s u) e) xs a).
Proof.
  intros Hu ids xs F. induction F as [|j x ids xs Hx F IH]; intros acc a N Ha; [exact Ha|]. cbn [fold_left]. rewrite N. apply IH; [reflexivity|].
  eapply va_eq; [apply va_add; [apply va_mul; [exact Hu|exact Ha]|exact Hx]|]. ring.
Qed.
Lemma lc_step_f tbl rho p u : va tbl rho p U u -> forall ids xs, Forall2 (fun j x => va tbl rho p (E_exp j false) x) ids xs ->
  forall acc a, is_nop acc = false -> va tbl rho p acc a ->
  va tbl rho p (fold_left (fun acc j => if is_nop acc then E_exp j false else E_add (E_mul acc U) (E_exp j false)) ids acc) (fold_left (fun s e => kadd (kmul s u) e) xs a).
Proof.
  intros Hu ids xs F. induction F as [|j x ids xs Hx F IH]; intros acc a N Ha; [exact Ha|]. cbn [fold_left]. rewrite N. apply IH; [reflexivity|].
  apply va_add; [apply va_mul; [exact Ha|exact Hu]|exact Hx].
Qed.
Lemma lc_t_va tbl rho p u ids xs : va tbl rho p U u -> Forall2 (fun j x => va tbl rho p (E_exp j false) x) ids xs -> ids <> [] -> va tbl rho p (lc_t ids) (hor u xs).
Proof.
  intros Hu F N. destruct F as [|j x ids xs Hx F]; [contradiction|]. unfold lc_t. cbn [fold_left]. change (is_nop E_nop) with true. cbv iota. unfold hor.
  apply lc_step_t; [exact Hu|exact F|reflexivity|exact Hx].
Qed.
Lemma lc_f_va tbl rho p u ids xs : va tbl rho p U u -> Forall2 (fun j x => va tbl rho p (E_exp j false) x) ids xs -> ids <> [] -> va tbl rho p (lc_f ids) (hor u xs).
Proof.
  intros Hu F N. destruct F as [|j x ids xs Hx F]; [contradiction|]. unfold lc_f. cbn [fold_left]. change (is_nop E_nop) with true. cbv iota. unfold hor.
  apply lc_step_f; [exact Hu|exact F|reflexivity|exact Hx].
Qed.
Lemma selected_va tbl rho p s d e sv dv x : (match s with Some j => va tbl rho p (E_exp j false) sv | None => sv = kone end) ->
  va tbl rho p d dv -> va tbl rho p e x -> va tbl rho p (selected_exp s d e) (sel sv x dv).
Proof.
  intros Hs Hd He. destruct s as [j|]; cbn [selected_exp].
  - apply va_kept. unfold sel. apply va_add; [apply va_mul; [apply va_sub; assumption|exact Hs]|exact Hd].
  - rewrite Hs, sel_1. exact He.
Qed.

(* ---- tables only grow ---- *)
Definition pre {A} (a b : list A) : Prop := exists r, b = a ++ r.
Lemma pre_refl {A} (a : list A) : pre a a. Proof. exists []. now rewrite app_nil_r. Qed.
Lemma pre_trans {A} (a b c : list A) : pre a b -> pre b c -> pre a c.
Proof. intros [r ->] [q ->]. exists (r ++ q). now rewrite app_assoc. Qed.
Lemma pre_app {A} (a b : list A) : pre a (a ++ b). Proof. exists b. reflexivity. Qed.
Lemma pre_nth {A} (a b : list A) i x : pre a b -> nth_error a i = Some x -> nth_error b i = Some x.
Proof. intros [r ->] E. rewrite nth_error_app1; [exact E|]. apply nth_error_Some. congruence. Qed.
Lemma pre_in {A} (a b : list A) x : pre a b -> In x a -> In x b.
Proof. intros [r ->] E. apply in_or_app. left. exact E. Qed.
Definition grow (s s' : astate) : Prop := pre (a_exps s) (a_exps s') /\ pre (a_ids s) (a_ids s').
Lemma grow_refl s : grow s s. Proof. split; apply pre_refl. Qed.
Lemma grow_trans a b c : grow a b -> grow b c -> grow a c.
Proof. intros [A B] [C D]. split; eapply pre_trans; eassumption. Qed.
Lemma nth_end {A} (l : list A) x : nth_error (l ++ [x]) (length l) = Some x.
Proof. rewrite nth_error_app2 by lia. rewrite Nat.sub_diag. reflexivity. Qed.
Lemma gen_code_inv fl s i s' : gen_code fl s i = Ok s' -> a_exps s' = a_exps s /\ a_ids s' = a_ids s /\ a_ncm s' = a_ncm s.
Proof.
  unfold gen_code. intros E. apply bind_ok in E. destruct E as [c [_ E]]. injection E as <-. repeat split.
Qed.
Lemma close_code_inv s c s' : close_code s = (c, s') -> a_exps s' = a_exps s /\ a_ids s' = a_ids s /\ a_ncm s' = a_ncm s.
Proof. unfold close_code. destruct (build_code (a_exps s) (a_ctx s)) as [[code tmp] cc]. intros E. injection E as _ <-. repeat split. Qed.

Ltac tables := cbn [a_exps a_ids push_exp push_id push_cm next_exp] in *.

(* ---- lookups, first part ---- *)
Definition lookup_ft (tbl : list expr) (pi : lident) (q : pcctx9) : Prop := exists ts fs,
  l_t pi = Some ts /\ l_f pi = Some fs /\
  nth_error tbl (q_t q) = Some (kept (selected_exp (l_selT pi) DEFVAL (lc_t ts))) /\
  nth_error tbl (q_f q) = Some (kept (selected_exp (l_selF pi) (E_exp (q_t q) false) (lc_f fs))).
Lemma lookup_ft_mono t1 t2 pi q : pre t1 t2 -> lookup_ft t1 pi q -> lookup_ft t2 pi q.
Proof. intros P [ts [fs [A [B [C D]]]]]. exists ts, fs. repeat split; auto; eapply pre_nth; eassumption. Qed.
Lemma step2_one_ok fl s pi s' q : step2_one fl s pi = Ok (s', q) ->
  grow s s' /\ lookup_ft (a_exps s') pi q /\ q_h1 q = a_ncm s /\ q_h2 q = a_ncm s + 1 /\ a_ncm s' = a_ncm s + 2.
Proof.
  unfold step2_one. intros E. apply bind_ok in E. destruct E as [ts [Ets E]]. cbv zeta in E. apply bind_ok in E. destruct E as [fs [Efs E]].
  apply bind_ok in E. destruct E as [s3 [E3 E]]. apply bind_ok in E. destruct E as [s4 [E4 E]].
  apply gen_code_inv in E3, E4. destruct E3 as [X3 [I3 N3]], E4 as [X4 [I4 N4]].
  assert (Es : s' = push_cm (push_cm s4)) by congruence.
  assert (Eq : q = mkQ (a_ncm s4) (a_ncm (push_cm s4)) (next_exp (push_exp s (kept (selected_exp (l_selT pi) DEFVAL (lc_t ts))))) (next_exp s) 0 0 0 0 0) by congruence.
  clear E. subst s' q. tables. rewrite X4, X3. cbn [q_h1 q_h2 q_t q_f a_ncm push_cm]. tables.
  assert (Et : l_t pi = Some ts) by (destruct (l_t pi); [cbn in Ets; congruence|discriminate Ets]).
  assert (Ef : l_f pi = Some fs) by (destruct (l_f pi); [cbn in Efs; congruence|discriminate Efs]).
  repeat split.
  - tables. rewrite X4, X3. rewrite <- app_assoc. apply pre_app.
  - tables. rewrite I4, I3. apply pre_refl.
  - exists ts, fs. cbn [q_t q_f]. split; [exact Et|]. split; [exact Ef|]. split.
    + apply (pre_nth (a_exps s ++ [kept (selected_exp (l_selT pi) DEFVAL (lc_t ts))])); [apply pre_app|]. apply nth_end.
    + apply nth_end.
  - rewrite N4, N3. reflexivity.
  - rewrite N4, N3. reflexivity.
  - rewrite N4, N3. cbn [a_ncm push_exp]. lia.
Qed.
Lemma step2_loop_ok fl : forall l s s' qs, step2_loop fl s l = Ok (s', qs) ->
  grow s s' /\ Forall2 (lookup_ft (a_exps s')) l qs /\ flat_map (fun q => [q_h1 q; q_h2 q]) qs = seq (a_ncm s) (2 * length l) /\ a_ncm s' = a_ncm s + 2 * length l.
Proof.
  induction l as [|pi l IH]; intros s s' qs E; cbn [step2_loop] in E.
  - injection E as <- <-. repeat split; try apply pre_refl; [constructor|cbn; lia].
  - apply bind_ok in E. destruct E as [[s1 q] [E1 E]]. apply bind_ok in E. destruct E as [[s2 qs'] [E2 E]]. cbn [fst snd] in *. injection E as <- <-.
    apply step2_one_ok in E1. destruct E1 as [G1 [L1 [H1 [H2 N1]]]]. apply IH in E2. destruct E2 as [G2 [L2 [H3 N2]]].
    split; [eapply grow_trans; eassumption|]. split; [|split].
    + constructor; [|exact L2]. eapply lookup_ft_mono; [apply G2|exact L1].
    + cbn [flat_map length app]. rewrite H3, H1, H2, N1. replace (2 * S (length l)) with (S (S (2 * length l))) by lia. cbn [seq].
      replace (S (a_ncm s)) with (a_ncm s + 1) by lia. replace (S (a_ncm s + 1)) with (a_ncm s + 2) by lia. reflexivity.
    + rewrite N2, N1. cbn [length]. lia.
Qed.

(* ---- the constraints on the running product ---- *)
Definition zcon (l1 : option nat) (tbl : list expr) (ids : list nat) (q : pcctx9) : Prop := exists l,
  l1 = Some l /\ In (q_c1 q) ids /\ In (q_c2 q) ids /\
  nth_error tbl (q_c1 q) = Some (first_exp l (q_z q)) /\ nth_error tbl (q_c2 q) = Some (step_exp (q_z q) (q_num q) (q_den q)).
Lemma zcon_mono l1 t1 t2 i1 i2 q : pre t1 t2 -> pre i1 i2 -> zcon l1 t1 i1 q -> zcon l1 t2 i2 q.
Proof.
  intros P Q [l [A [B [C [D E]]]]]. exists l. repeat split; auto; first [eapply pre_in; eassumption|eapply pre_nth; eassumption].
Qed.
Definition vanishes (tbl : list expr) (rho : nat -> node -> F3G) (n c : nat) : Prop := forall i, i < n -> va tbl (rho i) false (E_exp c false) kzero.
Definition has_col (tbl : list expr) (rho : nat -> node -> F3G) (n c : nat) (X : nat -> K) : Prop := forall i, i < n -> va tbl (rho i) false (E_exp c false) (X i).
Lemma zcon_running l1 tbl ids q n w ch rho num den : zcon l1 tbl ids q -> rows n w l1 ch rho -> 0 < n ->
  has_col tbl rho n (q_num q) num -> has_col tbl rho n (q_den q) den ->
  (vanishes tbl rho n (q_c1 q) /\ vanishes tbl rho n (q_c2 q) <-> running n (cmcol rho (q_z q)) num den).
Proof.
  intros [l [-> [_ [_ [E1 E2]]]]] R Hn HN HD.
  assert (V1 : forall i, i < n -> va tbl (rho i) false (E_exp (q_c1 q) false) (kmul (if i =? 0 then kone else kzero) (ksub (cmcol rho (q_z q) i) kone))).
  { intros i Hi. eapply va_exp; [exact E1|reflexivity|]. unfold first_exp. eapply va_eq.
    - apply va_mul; [apply va_const; reflexivity|]. apply va_sub; [apply va_cm; reflexivity|apply va_number].
    - cbn [orb]. rewrite (r_l1 _ _ _ _ _ R i l Hi eq_refl), (r_num _ _ _ _ _ R). reflexivity. }
  assert (V2 : forall i, i < n -> va tbl (rho i) false (E_exp (q_c2 q) false) (ksub (kmul (cmcol rho (q_z q) (nxt n i)) (den i)) (kmul (cmcol rho (q_z q) i) (num i)))).
  { intros i Hi. eapply va_exp; [exact E2|reflexivity|]. unfold step_exp. eapply va_eq.
    - apply va_sub; apply va_mul; [apply va_cm; reflexivity|exact (HD i Hi)|apply va_cm; reflexivity|exact (HN i Hi)].
    - cbn [orb]. rewrite (r_cm _ _ _ _ _ R i (q_z q) Hi). reflexivity. }
  split.
  - intros [C1 C2]. split.
    + pose proof (va_fun _ _ _ _ _ _ (V1 0 Hn) (C1 0 Hn)) as E. cbn [Nat.eqb] in E. apply ksub_0. etransitivity; [|exact E]. ring.
    + intros i Hi. apply ksub_0. exact (va_fun _ _ _ _ _ _ (V2 i Hi) (C2 i Hi)).
  - intros [Z0 ST]. split; intros i Hi.
    + eapply va_eq; [apply V1, Hi|]. destruct (Nat.eqb_spec i 0) as [->|N]; [rewrite Z0|]; ring.
    + eapply va_eq; [apply V2, Hi|]. rewrite (ST i Hi). ring.
Qed.

(* ---- lookups, second part ---- *)
Definition lookup_nd (tbl : list expr) (q : pcctx9) : Prop :=
  nth_error tbl (q_num q) = Some (lookup_num (q_f q) (q_t q)) /\ nth_error tbl (q_den q) = Some (lookup_den (q_h1 q) (q_h2 q)).
Definition perm_nd (tbl : list expr) (q : pcctx9) : Prop :=
  nth_error tbl (q_num q) = Some (kept (E_add (E_exp (q_f q) false) BETA)) /\ nth_error tbl (q_den q) = Some (kept (E_add (E_exp (q_t q) false) BETA)).
Definition same_ft (q q' : pcctx9) : Prop := q_f q' = q_f q /\ q_t q' = q_t q /\ q_h1 q' = q_h1 q /\ q_h2 q' = q_h2 q.

Lemma nth_at {A} (l r : list A) x k : k = length l -> nth_error (l ++ x :: r) k = Some x.
Proof. intros ->. rewrite nth_error_app2 by lia. rewrite Nat.sub_diag. reflexivity. Qed.
Lemma plookup_z_one_ok fl l1 s q s' q' : plookup_z_one fl l1 s q = Ok (s', q') ->
  grow s s' /\ zcon l1 (a_exps s') (a_ids s') q' /\ lookup_nd (a_exps s') q' /\ same_ft q q' /\ q_z q' = a_ncm s /\ a_ncm s' = a_ncm s + 1.
Proof.
  unfold plookup_z_one. intros E. cbv zeta in E. apply bind_ok in E. destruct E as [l [El E]]. apply bind_ok in E. destruct E as [s6 [E6 E]]. apply bind_ok in E. destruct E as [s7 [E7 E]].
  apply gen_code_inv in E6, E7. destruct E6 as [X6 [I6 N6]], E7 as [X7 [I7 N7]]. assert (L1 : l1 = Some l) by (destruct l1; [cbn in El; congruence|discriminate El]).
  injection E as <- <-. rewrite X6 in X7. rewrite I6 in I7. rewrite N6 in N7. clear X6 I6 N6 s6 El. tables. cbn [a_ncm push_exp push_id push_cm] in N7.
  rewrite <- !app_assoc in X7. rewrite <- !app_assoc in I7. cbn [app] in X7, I7.
  unfold zcon, lookup_nd, same_ft, grow. cbn [q_c1 q_c2 q_num q_den q_z q_f q_t q_h1 q_h2]. unfold next_exp. tables. rewrite X7, I7.
  repeat split; try apply pre_app; try exact N7.
  - exists l. split; [exact L1|]. split; [apply in_or_app; right; left; reflexivity|]. split; [apply in_or_app; right; right; left; reflexivity|]. split.
    + apply nth_at. reflexivity.
    + match goal with |- nth_error (?a ++ ?x :: ?y :: ?z :: ?u :: []) _ = _ => change (a ++ x :: y :: z :: u :: []) with (a ++ [x; y; z] ++ [u]); rewrite app_assoc end.
      apply nth_at. rewrite !app_length. cbn [length]. lia.
  - match goal with |- nth_error (?a ++ ?x :: ?r) _ = _ => change (a ++ x :: r) with (a ++ [x] ++ r); rewrite app_assoc end. apply nth_at. rewrite !app_length. reflexivity.
  - match goal with |- nth_error (?a ++ ?x :: ?y :: ?r) _ = _ => change (a ++ x :: y :: r) with (a ++ [x; y] ++ r); rewrite app_assoc end. apply nth_at. rewrite !app_length. cbn [length]. lia.
Qed.
Lemma perm_z_one_ok fl l1 s q s' q' : perm_z_one fl l1 s q = Ok (s', q') ->
  grow s s' /\ zcon l1 (a_exps s') (a_ids s') q' /\ perm_nd (a_exps s') q' /\ same_ft q q' /\ q_z q' = a_ncm s /\ a_ncm s' = a_ncm s + 1.
Proof.
  unfold perm_z_one. intros E. cbv zeta in E. apply bind_ok in E. destruct E as [l [El E]]. apply bind_ok in E. destruct E as [s6 [E6 E]]. apply bind_ok in E. destruct E as [s7 [E7 E]].
  apply gen_code_inv in E6, E7. destruct E6 as [X6 [I6 N6]], E7 as [X7 [I7 N7]]. assert (L1 : l1 = Some l) by (destruct l1; [cbn in El; congruence|discriminate El]).
  injection E as <- <-. rewrite X6 in X7. rewrite I6 in I7. rewrite N6 in N7. clear X6 I6 N6 s6 El. tables. cbn [a_ncm push_exp push_id push_cm] in N7.
  rewrite <- !app_assoc in X7. rewrite <- !app_assoc in I7. cbn [app] in X7, I7.
  unfold zcon, perm_nd, same_ft, grow. cbn [q_c1 q_c2 q_num q_den q_z q_f q_t q_h1 q_h2]. unfold next_exp. tables. rewrite X7, I7.
  repeat split; try apply pre_app; try exact N7.
  - exists l. split; [exact L1|]. split; [apply in_or_app; right; left; reflexivity|]. split; [apply in_or_app; right; right; left; reflexivity|]. split.
    + apply nth_at. reflexivity.
    + match goal with |- nth_error (?a ++ ?x :: ?y :: ?z :: ?u :: []) _ = _ => change (a ++ x :: y :: z :: u :: []) with (a ++ [x; y; z] ++ [u]); rewrite app_assoc end.
      apply nth_at. rewrite !app_length. cbn [length]. lia.
  - match goal with |- nth_error (?a ++ ?x :: ?r) _ = _ => change (a ++ x :: r) with (a ++ [x] ++ r); rewrite app_assoc end. apply nth_at. rewrite !app_length. reflexivity.
  - match goal with |- nth_error (?a ++ ?x :: ?y :: ?r) _ = _ => change (a ++ x :: y :: r) with (a ++ [x; y] ++ r); rewrite app_assoc end. apply nth_at. rewrite !app_length. cbn [length]. lia.
Qed.
Definition zdone (l1 : option nat) (nd : list expr -> pcctx9 -> Prop) (tbl : list expr) (ids : list nat) (q q' : pcctx9) : Prop :=
  zcon l1 tbl ids q' /\ nd tbl q' /\ same_ft q q'.
Lemma zdone_mono l1 (nd : list expr -> pcctx9 -> Prop) t1 t2 i1 i2 q q' : (forall a b x, pre a b -> nd a x -> nd b x) -> pre t1 t2 -> pre i1 i2 -> zdone l1 nd t1 i1 q q' -> zdone l1 nd t2 i2 q q'.
Proof. intros M P Q [A [B C]]. split; [eapply zcon_mono; eassumption|]. split; [eapply M; eassumption|exact C]. Qed.
Lemma lookup_nd_mono a b x : pre a b -> lookup_nd a x -> lookup_nd b x.
Proof. intros P [A B]. split; eapply pre_nth; eassumption. Qed.
Lemma perm_nd_mono a b x : pre a b -> perm_nd a x -> perm_nd b x.
Proof. intros P [A B]. split; eapply pre_nth; eassumption. Qed.
Lemma Forall2_mono {A B} (R S : A -> B -> Prop) l r : (forall a b, R a b -> S a b) -> Forall2 R l r -> Forall2 S l r.
Proof. intros H F. induction F; constructor; auto. Qed.
Lemma plookup_z_ok fl l1 : forall l s s' qs, plookup_z fl l1 s l = Ok (s', qs) ->
  grow s s' /\ Forall2 (zdone l1 lookup_nd (a_exps s') (a_ids s')) l qs /\ map q_z qs = seq (a_ncm s) (length l) /\ a_ncm s' = a_ncm s + length l.
Proof.
  induction l as [|q l IH]; intros s s' qs E; cbn [plookup_z] in E.
  - injection E as <- <-. repeat split; try apply pre_refl; [constructor|cbn; lia].
  - apply bind_ok in E. destruct E as [[s1 q'] [E1 E]]. apply bind_ok in E. destruct E as [[s2 qs'] [E2 E]]. cbn [fst snd] in *. injection E as <- <-.
    apply plookup_z_one_ok in E1. destruct E1 as [G1 [Z1 [D1 [F1 [ZN N1]]]]]. apply IH in E2. destruct E2 as [G2 [L2 [H3 N2]]].
    split; [eapply grow_trans; eassumption|]. split; [|split].
    + constructor; [|exact L2]. apply (zdone_mono l1 lookup_nd (a_exps s1) _ (a_ids s1)); [exact lookup_nd_mono|apply G2|apply G2|]. split; [exact Z1|split; assumption].
    + cbn [map length seq]. rewrite H3, ZN, N1, Nat.add_1_r. reflexivity.
    + rewrite N2, N1. cbn [length]. lia.
Qed.
Lemma perm_z_ok fl l1 : forall l s s' qs, perm_z fl l1 s l = Ok (s', qs) ->
  grow s s' /\ Forall2 (zdone l1 perm_nd (a_exps s') (a_ids s')) l qs /\ map q_z qs = seq (a_ncm s) (length l) /\ a_ncm s' = a_ncm s + length l.
Proof.
  induction l as [|q l IH]; intros s s' qs E; cbn [perm_z] in E.
  - injection E as <- <-. repeat split; try apply pre_refl; [constructor|cbn; lia].
  - apply bind_ok in E. destruct E as [[s1 q'] [E1 E]]. apply bind_ok in E. destruct E as [[s2 qs'] [E2 E]]. cbn [fst snd] in *. injection E as <- <-.
    apply perm_z_one_ok in E1. destruct E1 as [G1 [Z1 [D1 [F1 [ZN N1]]]]]. apply IH in E2. destruct E2 as [G2 [L2 [H3 N2]]].
    split; [eapply grow_trans; eassumption|]. split; [|split].
    + constructor; [|exact L2]. apply (zdone_mono l1 perm_nd (a_exps s1) _ (a_ids s1)); [exact perm_nd_mono|apply G2|apply G2|]. split; [exact Z1|split; assumption].
    + cbn [map length seq]. rewrite H3, ZN, N1, Nat.add_1_r. reflexivity.
    + rewrite N2, N1. cbn [length]. lia.
Qed.

(* ---- permutations, first part ---- *)
Definition perm_ft (tbl : list expr) (pi : lident) (q : pcctx9) : Prop := exists ts fs,
  l_t pi = Some ts /\ l_f pi = Some fs /\
  nth_error tbl (q_t q) = Some (selected_exp (l_selT pi) DEFVAL (lc_t ts)) /\
  nth_error tbl (q_f q) = Some (selected_exp (l_selF pi) DEFVAL (lc_f fs)).
Lemma perm_ft_mono t1 t2 pi q : pre t1 t2 -> perm_ft t1 pi q -> perm_ft t2 pi q.
Proof. intros P [ts [fs [A [B [C D]]]]]. exists ts, fs. repeat split; auto; eapply pre_nth; eassumption. Qed.
Lemma perm_lc_one_ok s pi s' q : perm_lc_one s pi = Ok (s', q) -> grow s s' /\ perm_ft (a_exps s') pi q /\ a_ncm s' = a_ncm s.
Proof.
  unfold perm_lc_one. intros E. apply bind_ok in E. destruct E as [ts [Ets E]]. cbv zeta in E.
  destruct (is_nop (selected_exp (l_selT pi) DEFVAL (lc_t ts))); [discriminate E|]. apply bind_ok in E. destruct E as [fs [Efs E]].
  destruct (is_nop (selected_exp (l_selF pi) DEFVAL (lc_f fs))); [discriminate E|]. injection E as <- <-. tables.
  assert (Et : l_t pi = Some ts) by (destruct (l_t pi); [cbn in Ets; congruence|discriminate Ets]).
  assert (Ef : l_f pi = Some fs) by (destruct (l_f pi); [cbn in Efs; congruence|discriminate Efs]).
  repeat split.
  - tables. rewrite <- app_assoc. apply pre_app.
  - tables. apply pre_refl.
  - exists ts, fs. unfold next_exp. cbn [q_t q_f]. tables. split; [exact Et|]. split; [exact Ef|]. split.
    + eapply pre_nth; [apply pre_app|]. apply nth_end.
    + apply nth_end.
Qed.
Lemma perm_lc_ok : forall l s s' qs, perm_lc s l = Ok (s', qs) -> grow s s' /\ Forall2 (perm_ft (a_exps s')) l qs /\ a_ncm s' = a_ncm s.
Proof.
  induction l as [|pi l IH]; intros s s' qs E; cbn [perm_lc] in E.
  - injection E as <- <-. repeat split; try apply pre_refl; constructor.
  - apply bind_ok in E. destruct E as [[s1 q] [E1 E]]. apply bind_ok in E. destruct E as [[s2 qs'] [E2 E]]. cbn [fst snd] in *. injection E as <- <-.
    apply perm_lc_one_ok in E1. destruct E1 as [G1 [L1 N1]]. apply IH in E2. destruct E2 as [G2 [L2 N2]].
    split; [eapply grow_trans; eassumption|]. split; [|congruence].
    constructor; [|exact L2]. eapply perm_ft_mono; [apply G2|exact L1].
Qed.

(* ---- connections ---- *)
Definition num_exp0 (p : nat) : expr := E_add (E_add (E_exp p false) (E_mul BETA E_x)) GAMMA.
Definition num_exp1 (num p : nat) (k : Fr) : expr :=
  E_mul (E_exp num false) (E_add (E_add (E_exp p false) (E_mul (E_mul BETA (E_number (fint k))) E_x)) GAMMA).
Definition den_exp0 (p c : nat) : expr := E_add (E_add (E_exp p false) (E_mul BETA (E_exp c false))) GAMMA.
Definition den_exp1 (den p c : nat) : expr := E_mul (E_exp den false) (den_exp0 p c).
Fixpoint chain (tbl : list expr) (num den : nat) (pols conns : list nat) (ks : list Fr) (num' den' : nat) : Prop :=
  match pols with
  | [] => num' = num /\ den' = den
  | p :: pols' => exists k ks' c conns' m d, ks = k :: ks' /\ conns = c :: conns' /\
      nth_error tbl m = Some (kept (num_exp1 num p k)) /\ nth_error tbl d = Some (kept (den_exp1 den p c)) /\ chain tbl m d pols' conns' ks' num' den'
  end.
Lemma chain_mono t1 t2 : pre t1 t2 -> forall pols num den conns ks num' den', chain t1 num den pols conns ks num' den' -> chain t2 num den pols conns ks num' den'.
Proof.
  intros P. induction pols as [|p pols IH]; intros num den conns ks num' den' H; [exact H|]. cbn [chain] in *.
  destruct H as [k [ks' [c [conns' [m [d [A [B [C [D E]]]]]]]]]]. exists k, ks', c, conns', m, d. repeat split; auto; eapply pre_nth; eassumption.
Qed.
Lemma conn_cols_ok : forall pols s num den conns ks s' num' den', conn_cols s num den pols conns ks = Ok (s', num', den') ->
  grow s s' /\ a_ncm s' = a_ncm s /\ chain (a_exps s') num den pols conns ks num' den'.
Proof.
  induction pols as [|p pols IH]; intros s num den conns ks s' num' den' E; cbn [conn_cols] in E.
  - injection E as <- <- <-. split; [apply grow_refl|]. split; [reflexivity|]. split; reflexivity.
  - apply bind_ok in E. destruct E as [k [Ek E]]. cbv zeta in E. apply bind_ok in E. destruct E as [c [Ec E]]. apply IH in E. destruct E as [G [N C]].
    destruct ks as [|k' ks]; [discriminate Ek|]. destruct conns as [|c' conns]; [discriminate Ec|]. cbn [hd_error unwrap tl] in *.
    assert (k' = k) by (unfold unwrap in Ek; congruence). assert (c' = c) by (unfold unwrap in Ec; congruence). subst k' c'.
    split; [|split].
    + eapply grow_trans; [|exact G]. split; tables; [rewrite <- app_assoc; apply pre_app|apply pre_refl].
    + rewrite N. reflexivity.
    + cbn [chain]. exists k, ks, c, conns, (next_exp s), (S (next_exp s)).
      split; [reflexivity|]. split; [reflexivity|]. destruct G as [G _]. unfold next_exp in *. tables. split; [|split].
      * apply (pre_nth _ _ _ _ G). rewrite <- app_assoc. apply nth_at. reflexivity.
      * apply (pre_nth _ _ _ _ G). rewrite <- app_assoc. cbn [app]. match goal with |- nth_error (?a ++ ?x :: ?r) _ = _ => change (a ++ x :: r) with (a ++ [x] ++ r); rewrite app_assoc end.
        apply nth_at. rewrite app_length. cbn [length]. lia.
      * rewrite app_length in C. cbn [length] in C. rewrite Nat.add_1_r in C. exact C.
Qed.
Definition conn_nd (tbl : list expr) (ci : cident) (q : pcctx9) : Prop := exists p0 pols c0 conns ks num den,
  ci_pols ci = Some (p0 :: pols) /\ ci_conns ci = Some (c0 :: conns) /\ get_ks (length pols) = Ok ks /\
  nth_error tbl num = Some (kept (num_exp0 p0)) /\ nth_error tbl den = Some (kept (den_exp0 p0 c0)) /\
  chain tbl num den pols conns ks (q_num q) (q_den q).
Lemma conn_nd_mono a b ci q : pre a b -> conn_nd a ci q -> conn_nd b ci q.
Proof.
  intros P [p0 [pols [c0 [conns [ks [num [den [A [B [C [D [E F]]]]]]]]]]]]. exists p0, pols, c0, conns, ks, num, den.
  repeat split; auto; first [eapply pre_nth; eassumption|eapply chain_mono; eassumption].
Qed.
Lemma conn_z_one_ok fl l1 s ci s' q : conn_z_one fl l1 s ci = Ok (s', q) ->
  grow s s' /\ zcon l1 (a_exps s') (a_ids s') q /\ conn_nd (a_exps s') ci q /\ q_z q = a_ncm s /\ a_ncm s' = a_ncm s + 1.
Proof.
  unfold conn_z_one. intros E. apply bind_ok in E. destruct E as [pols [Ep E]]. apply bind_ok in E. destruct E as [conns [Ec E]]. cbv zeta in E.
  apply bind_ok in E. destruct E as [p0 [Ep0 E]]. apply bind_ok in E. destruct E as [c0 [Ec0 E]]. apply bind_ok in E. destruct E as [ks [Ek E]].
  apply bind_ok in E. destruct E as [[[s4 num'] den'] [Er E]]. apply bind_ok in E. destruct E as [l [El E]]. apply bind_ok in E. destruct E as [s7 [E7 E]].
  apply bind_ok in E. destruct E as [s8 [E8 E]]. injection E as <- <-.
  apply gen_code_inv in E7, E8. destruct E7 as [X7 [I7 N7]], E8 as [X8 [I8 N8]]. rewrite X7 in X8. rewrite I7 in I8. rewrite N7 in N8. clear X7 I7 N7 s7.
  assert (L1 : l1 = Some l) by (destruct l1; [cbn in El; congruence|discriminate El]).
  assert (Pp : ci_pols ci = Some pols) by (destruct (ci_pols ci); [cbn in Ep; congruence|discriminate Ep]).
  assert (Pc : ci_conns ci = Some conns) by (destruct (ci_conns ci); [cbn in Ec; congruence|discriminate Ec]).
  destruct pols as [|p pols]; [discriminate Ep0|]. destruct conns as [|c conns]; [discriminate Ec0|]. cbn [hd_error unwrap tl length] in *.
  assert (p = p0) by congruence. assert (c = c0) by congruence. subst p c. rewrite Nat.sub_succ, Nat.sub_0_r in Ek.
  apply conn_cols_ok in Er. destruct Er as [G [N C]]. unfold next_exp in *. tables. cbn [a_ncm push_exp push_id push_cm] in *.
  rewrite <- !app_assoc in X8. rewrite <- !app_assoc in I8. cbn [app] in X8, I8.
  assert (P4 : pre (a_exps s4) (a_exps s8)) by (rewrite X8; apply pre_app).
  assert (G0 : grow s s4).
  { eapply grow_trans; [|exact G]. split; tables; [rewrite <- app_assoc; apply pre_app|apply pre_refl]. }
  split; [|split; [|split; [|split]]].
  - eapply grow_trans; [exact G0|]. split; [exact P4|rewrite I8; apply pre_app].
  - exists l. cbn [q_c1 q_c2 q_z q_num q_den]. split; [exact L1|]. rewrite I8, X8. split; [apply in_or_app; right; left; reflexivity|]. split; [apply in_or_app; right; right; left; reflexivity|]. split.
    + apply nth_at. reflexivity.
    + match goal with |- nth_error (?a ++ ?x :: ?r) _ = _ => change (a ++ x :: r) with (a ++ [x] ++ r); rewrite app_assoc end. apply nth_at. rewrite !app_length. reflexivity.
  - exists p0, pols, c0, conns, ks, (length (a_exps s)), (length (a_exps s ++ [kept (num_exp0 p0)])). cbn [q_num q_den].
    split; [exact Pp|]. split; [exact Pc|]. split; [exact Ek|]. split; [|split].
    + apply (pre_nth _ _ _ _ P4). apply (pre_nth _ _ _ _ (proj1 G)). tables. rewrite <- app_assoc. apply nth_at. reflexivity.
    + apply (pre_nth _ _ _ _ P4). apply (pre_nth _ _ _ _ (proj1 G)). tables. apply nth_at. reflexivity.
    + apply (chain_mono _ _ P4). exact C.
  - reflexivity.
  - rewrite N8, N. reflexivity.
Qed.
Lemma conn_z_ok fl l1 : forall l s s' qs, conn_z fl l1 s l = Ok (s', qs) ->
  grow s s' /\ Forall2 (fun ci q => zcon l1 (a_exps s') (a_ids s') q /\ conn_nd (a_exps s') ci q) l qs /\ map q_z qs = seq (a_ncm s) (length l) /\ a_ncm s' = a_ncm s + length l.
Proof.
  induction l as [|ci l IH]; intros s s' qs E; cbn [conn_z] in E.
  - injection E as <- <-. repeat split; try apply pre_refl; [constructor|cbn; lia].
  - apply bind_ok in E. destruct E as [[s1 q'] [E1 E]]. apply bind_ok in E. destruct E as [[s2 qs'] [E2 E]]. cbn [fst snd] in *. injection E as <- <-.
    apply conn_z_one_ok in E1. destruct E1 as [G1 [Z1 [D1 [ZN N1]]]]. apply IH in E2. destruct E2 as [G2 [L2 [H3 N2]]].
    split; [eapply grow_trans; eassumption|]. split; [|split].
    + constructor; [|exact L2]. split; [eapply zcon_mono; [apply G2|apply G2|exact Z1]|eapply conn_nd_mono; [apply G2|exact D1]].
    + cbn [map length seq]. rewrite H3, ZN, N1, Nat.add_1_r. reflexivity.
    + rewrite N2, N1. cbn [length]. lia.
Qed.
