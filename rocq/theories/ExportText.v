(* The names and line numbers of the export. *)
From Coq Require Import Sorted.
From Verif Require Import Base ListAux ExportModel.
Open Scope nat_scope.
Open Scope list_scope.
Open Scope res_scope.

(** * Names *)

Lemma rfind_some l : forall i, rfind_cc l = Some i -> exists a b, l = a ++ colon :: colon :: b /\ List.length a = i /\ rfind_cc (colon :: b) = None.
Proof.
  induction l as [|c r IH]; intros i H; [discriminate H|]. cbn [rfind_cc] in H. destruct (rfind_cc r) as [j|] eqn:E.
  - injection H as <-. destruct (IH j eq_refl) as [a [b [-> [L N]]]]. exists (c :: a), b. split; [reflexivity|]. split; [cbn; now rewrite L | exact N].
  - destruct r as [|d r]; [discriminate H|]. destruct (c =? colon) eqn:Ec; cbn [andb] in H; [|discriminate H]. destruct (d =? colon) eqn:Ed; [|discriminate H]. injection H as <-.
    apply Nat.eqb_eq in Ec, Ed. subst c d. exists [], r. split; [reflexivity|]. split; [reflexivity | exact E].
Qed.
Lemma rfind_none l : rfind_cc l = None <-> forall a b, l <> a ++ colon :: colon :: b.
Proof.
  split.
  - induction l as [|c r IH]; intros H a b E; [destruct a; discriminate E|]. cbn [rfind_cc] in H. destruct (rfind_cc r) as [j|]; [discriminate H|].
    destruct a as [|x a]; injection E as -> E; [|exact (IH eq_refl a b E)]. subst r. rewrite !Nat.eqb_refl in H. discriminate H.
  - intros H. destruct (rfind_cc l) as [i|] eqn:E; [|reflexivity]. destruct (rfind_some _ _ E) as [a [b [Hl _]]]. destruct (H a b Hl).
Qed.
Definition dotted (n : name) : Prop := In dot n.
Lemma has_dot n : existsb (Nat.eqb dot) n = true <-> dotted n.
Proof. rewrite existsb_exists. split; [intros [x [A B]]; apply Nat.eqb_eq in B; now subst | intros H; exists dot; split; [exact H | apply Nat.eqb_refl]]. Qed.
(* a name with a dot is kept; the last "::" of any other becomes ".:"; a name with neither is refused *)
Theorem fixup_cases n :
  (dotted n -> fixup_name n = Ok n) /\
  (forall ns x, n = ns ++ colon :: colon :: x -> ~ dotted n -> (forall a b, colon :: x <> a ++ colon :: colon :: b) -> fixup_name n = Ok (ns ++ dot :: colon :: x)) /\
  (~ dotted n -> (forall a b, n <> a ++ colon :: colon :: b) -> fixup_name n = Panic).
Proof.
  unfold fixup_name. split; [|split].
  - intros H. now rewrite (proj2 (has_dot n) H).
  - intros ns x E Hd Hx. destruct (existsb (Nat.eqb dot) n) eqn:B; [destruct (Hd (proj1 (has_dot n) B))|].
    assert (R : rfind_cc n = Some (List.length ns)).
    { rewrite E. clear -Hx. induction ns as [|c ns IH]; cbn [app].
      - cbn [rfind_cc]. assert (F : rfind_cc (colon :: x) = None) by (apply rfind_none; exact Hx). cbn [rfind_cc] in F. rewrite F. reflexivity.
      - cbn [rfind_cc List.length] in *. rewrite IH. reflexivity. }
    rewrite R, E. rewrite firstn_app, Nat.sub_diag, firstn_all, app_nil_r. rewrite skipn_app, (skipn_all2 ns) by lia. replace (List.length ns + 1 - List.length ns) with 1 by lia. reflexivity.
  - intros Hd Hx. destruct (existsb (Nat.eqb dot) n) eqn:B; [destruct (Hd (proj1 (has_dot n) B))|]. now rewrite (proj2 (rfind_none n) Hx).
Qed.
(* names without a dot stay different *)
Lemma fixup_inv n m : ~ dotted n -> fixup_name n = Ok m -> exists ns x, n = ns ++ colon :: colon :: x /\ m = ns ++ dot :: colon :: x.
Proof.
  intros Hd. unfold fixup_name. destruct (existsb (Nat.eqb dot) n) eqn:B; [destruct (Hd (proj1 (has_dot n) B))|]. destruct (rfind_cc n) as [i|] eqn:R; [|discriminate]. intros H. injection H as <-.
  destruct (rfind_some _ _ R) as [ns [x [-> [<- _]]]]. exists ns, x. split; [reflexivity|]. rewrite firstn_app, Nat.sub_diag, firstn_all, app_nil_r.
  rewrite skipn_app, (skipn_all2 ns) by lia. replace (List.length ns + 1 - List.length ns) with 1 by lia. reflexivity.
Qed.
Lemma split_dot (a b x y : list nat) : ~ In dot a -> ~ In dot b -> a ++ dot :: x = b ++ dot :: y -> a = b /\ x = y.
Proof.
  revert b. induction a as [|c a IH]; intros b Ha Hb E; destruct b as [|d b]; cbn [app] in E.
  - injection E as <-. auto.
  - injection E as <- _. destruct (Hb (or_introl eq_refl)).
  - injection E as -> _. destruct (Ha (or_introl eq_refl)).
  - injection E as <- E. destruct (IH b) as [-> ->]; auto; [intros H; apply Ha; now right | intros H; apply Hb; now right].
Qed.
Theorem fixup_inj n n' m : ~ dotted n -> ~ dotted n' -> fixup_name n = Ok m -> fixup_name n' = Ok m -> n = n'.
Proof.
  intros Hn Hn' A B. destruct (fixup_inv _ _ Hn A) as [a [x [-> E]]]. destruct (fixup_inv _ _ Hn' B) as [b [y [-> E']]]. rewrite E in E'.
  destruct (split_dot a b (colon :: x) (colon :: y)) as [-> E2]; [intros H; apply Hn, in_or_app; now left | intros H; apply Hn', in_or_app; now left | exact E'|]. now injection E2 as ->.
Qed.
(* the name StarkInfo::new looks for is not what the column L1 of the namespace Global becomes *)
Definition global_l1 : name := [71; 108; 111; 98; 97; 108; 46; 76; 49].
Definition global_cc_l1 : name := [71; 108; 111; 98; 97; 108; 58; 58; 76; 49].
Theorem fixup_l1 : fixup_name global_cc_l1 = Ok [71; 108; 111; 98; 97; 108; 46; 58; 76; 49].
Proof. reflexivity. Qed.
Theorem fixup_never_l1 n : ~ dotted n -> fixup_name n <> Ok global_l1.
Proof.
  intros Hn H. destruct (fixup_inv _ _ Hn H) as [ns [x [-> E]]].
  assert (F : global_l1 = [71; 108; 111; 98; 97; 108] ++ dot :: [76; 49]) by reflexivity. rewrite F in E.
  destruct (split_dot [71; 108; 111; 98; 97; 108] ns [76; 49] (colon :: x)) as [_ E2]; [intros C; repeat (destruct C as [C|C]; [discriminate C|]); exact C | intros C; apply Hn, in_or_app; now left | exact E | discriminate E2].
Qed.

(** * Lines *)

Definition newlines (src : list nat) : nat := List.length (filter (Nat.eqb 10) src).
Lemma newlines_cons c l : newlines (c :: l) = (if 10 =? c then 1 else 0) + newlines l.
Proof. unfold newlines. cbn [filter]. destruct (10 =? c); reflexivity. Qed.
Lemma newlines_app a b : newlines (a ++ b) = newlines a + newlines b.
Proof. unfold newlines. rewrite filter_app, app_length. reflexivity. Qed.
Lemma breaks_lb src : forall i, Forall (fun s => i < s) (breaks i src).
Proof.
  induction src as [|c r IH]; intros i; cbn [breaks]; [constructor|]. destruct (c =? 10); [constructor; [lia|]|]; eapply Forall_impl; try apply IH; cbn beta; intros; lia.
Qed.
(* the elements not above an offset are the line starts up to it *)
Lemma search_breaks src : forall i x, i <= x -> let '(b, j) := search (breaks i src) x in
  (if b then S j else j) = newlines (firstn (x - i) src) /\ (b = true -> nth_error (breaks i src) j = Some x) /\
  (b = false -> j <> 0 -> exists s, nth_error (breaks i src) (j - 1) = Some s /\ s < x).
Proof.
  induction src as [|c r IH]; intros i x H; cbn [breaks search].
  - rewrite firstn_nil. cbn. split; [reflexivity|]. split; [discriminate | intros _ C; destruct (C eq_refl)].
  - destruct (c =? 10) eqn:Ec.
    + apply Nat.eqb_eq in Ec. subst c. cbn [search]. destruct (Nat.ltb_spec (i + 1) x) as [L|L].
      * specialize (IH (S i) x ltac:(lia)). destruct (search (breaks (S i) r) x) as [b j]. destruct IH as [A [B C]].
        replace (x - i) with (S (x - S i)) by lia. cbn [firstn]. rewrite newlines_cons, <- A. split; [destruct b; reflexivity|].
        split; [intros Hb; cbn [nth_error]; exact (B Hb)|]. intros Hb _. replace (S j - 1) with j by lia. destruct j as [|j]; cbn [nth_error]; [exists (i + 1); split; [reflexivity | exact L]|].
        destruct (C Hb ltac:(lia)) as [s [C1 C2]]. replace (S j - 1) with j in C1 by lia. exists s. auto.
      * destruct (Nat.eqb_spec (i + 1) x) as [E|E].
        -- replace (x - i) with 1 by lia. cbn. split; [reflexivity|]. split; [intros _; now rewrite E | discriminate].
        -- replace (x - i) with 0 by lia. cbn. split; [reflexivity|]. split; [discriminate | intros _ C; destruct (C eq_refl)].
    + destruct (Nat.eq_dec x i) as [->|Hx].
      * rewrite Nat.sub_diag. cbn [firstn]. pose proof (breaks_lb r (S i)) as F. destruct (breaks (S i) r) as [|y l]; cbn [search]; [cbn; split; [reflexivity|]; split; [discriminate | intros _ C; destruct (C eq_refl)]|].
        apply Forall_inv in F. destruct (Nat.ltb_spec y i); [lia|]. destruct (Nat.eqb_spec y i); [lia|]. cbn. split; [reflexivity|]. split; [discriminate | intros _ C; destruct (C eq_refl)].
      * specialize (IH (S i) x ltac:(lia)). destruct (search (breaks (S i) r) x) as [b j]. replace (x - i) with (S (x - S i)) by lia. cbn [firstn]. rewrite newlines_cons, Nat.eqb_sym, Ec. exact IH.
Qed.
Lemma breaks_nth src : forall i j s, nth_error (breaks i src) j = Some s -> i < s /\ nth_error src (s - 1 - i) = Some 10 /\ newlines (firstn (s - i) src) = S j.
Proof.
  induction src as [|c r IH]; intros i j s H; [destruct j; discriminate H|]. cbn [breaks] in H. destruct (c =? 10) eqn:Ec.
  - apply Nat.eqb_eq in Ec. subst c. destruct j as [|j]; cbn [nth_error] in H.
    + injection H as <-. split; [lia|]. replace (i + 1 - 1 - i) with 0 by lia. replace (i + 1 - i) with 1 by lia. split; reflexivity.
    + destruct (IH _ _ _ H) as [A [B C]]. split; [lia|]. replace (s - 1 - i) with (S (s - 1 - S i)) by lia. replace (s - i) with (S (s - S i)) by lia. cbn [nth_error firstn]. rewrite newlines_cons, C. split; [exact B | reflexivity].
  - destruct (IH _ _ _ H) as [A [B C]]. split; [lia|]. replace (s - 1 - i) with (S (s - 1 - S i)) by lia. replace (s - i) with (S (s - S i)) by lia. cbn [nth_error firstn]. rewrite newlines_cons, C, Nat.eqb_sym, Ec. split; [exact B | reflexivity].
Qed.
Lemma newlines_between s x src : s <= x -> newlines (firstn x src) = newlines (firstn s src) + newlines (firstn (x - s) (skipn s src)).
Proof. intros H. replace x with (s + (x - s)) at 1 by lia. rewrite <- newlines_app. f_equal. generalize (x - s) as d. intros d. revert src. clear H. induction s as [|s IH]; intros src; [reflexivity|]. destruct src as [|c r]; [rewrite !firstn_nil; reflexivity|]. cbn [Nat.add firstn skipn app]. f_equal. apply IH. Qed.
(* the line of an offset counts the line breaks before it, the column the bytes since the last one *)
Theorem line_of src x : exists s, offset_to_line_col x (line_starts src) = Ok (1 + newlines (firstn x src), x - s) /\ s <= x /\
  newlines (firstn (x - s) (skipn s src)) = 0 /\ (s = 0 \/ nth_error src (s - 1) = Some 10).
Proof.
  unfold offset_to_line_col, line_starts. cbn [search]. pose proof (search_breaks src 0 x (Nat.le_0_l x)) as Hs. rewrite Nat.sub_0_r in Hs.
  destruct (Nat.ltb_spec 0 x) as [L|L].
  - destruct (search (breaks 0 src) x) as [b j]. destruct Hs as [A [B C]]. destruct b.
    + specialize (B eq_refl). exists x. replace (S j + 1 =? 0) with false by (symmetry; apply Nat.eqb_neq; lia). replace (S j + 1 - 1) with (S j) by lia. unfold vget. cbn [nth_error]. rewrite B. cbn [bind].
      rewrite Nat.ltb_irrefl. split; [rewrite <- A; f_equal; f_equal; lia|]. split; [lia|]. rewrite Nat.sub_diag. split; [reflexivity|]. right. destruct (breaks_nth _ _ _ _ B) as [_ [B2 _]]. now rewrite Nat.sub_0_r in B2.
    + cbn [Nat.eqb]. replace (S j - 1) with j by lia. destruct j as [|j].
      * exists 0. cbn [vget nth_error bind]. unfold vget. cbn [nth_error bind]. rewrite <- A. destruct (Nat.ltb_spec x 0); [lia|]. split; [reflexivity|]. split; [lia|]. rewrite Nat.sub_0_r. cbn [skipn]. split; [now rewrite <- A | now left].
      * destruct (C eq_refl ltac:(lia)) as [s [E Ls]]. replace (S j - 1) with j in E by lia. unfold vget. cbn [nth_error]. rewrite E. exists s. cbn [bind]. destruct (Nat.ltb_spec x s); [lia|]. rewrite <- A. split; [reflexivity|]. split; [lia|].
        destruct (breaks_nth _ _ _ _ E) as [_ [B2 B3]]. rewrite Nat.sub_0_r in B2, B3. split; [|now right]. pose proof (newlines_between s x src ltac:(lia)) as N. rewrite <- A, B3 in N. lia.
  - assert (x = 0) by lia. subst x. exists 0. cbn [Nat.eqb Nat.add Nat.sub vget nth_error bind]. unfold vget. cbn [nth_error bind Nat.ltb Nat.leb firstn]. split; [reflexivity|]. split; [lia|]. split; [reflexivity | now left].
Qed.
