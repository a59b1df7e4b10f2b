(* Layout of sections whose columns all have the same dimension, and code generated over a longer table. *)
From Coq Require Import String Permutation.
From Verif Require Import Base GlModel FrField F3gModel ListAux CodegenModel CodegenProof InterpModel VerifierModel ParModel ImModel StarkModel StageModel StarkSrc MapModel MapProof InfoModel.
From Verif Require NGen.
Open Scope nat_scope.
Open Scope list_scope.
Open Scope res_scope.

(** ** positions *)
Lemma filter_nth {A} (f : A -> bool) l : forall i x, nth_error l i = Some x -> f x = true -> nth_error (filter f l) (List.length (filter f (firstn i l))) = Some x.
Proof.
  induction l as [|y l IH]; intros [|i] x H Hf; try discriminate H.
  - cbn in H. injection H as ->. cbn [firstn filter List.length]. rewrite Hf. reflexivity.
  - cbn [nth_error] in H. cbn [firstn filter]. destruct (f y); cbn [List.length nth_error]; apply IH; assumption.
Qed.
Lemma cells_pos l d : forall p n, Forall (fun x => pt_dim x = d) l -> 0 < d -> flat_map cells l = seq p n ->
  n = d * List.length l /\ forall k x, nth_error l k = Some x -> pt_pos x = p + d * k.
Proof.
  induction l as [|y l IH]; intros p n HF Hd H; cbn [flat_map] in H.
  - destruct n; [|discriminate H]. split; [cbn; lia|]. intros [|k] x E; discriminate E.
  - pose proof (Forall_inv HF) as Hy. cbn beta in Hy. unfold cells in H. rewrite Hy in H.
    assert (Hn : d <= n). { apply (f_equal (@List.length nat)) in H. rewrite app_length, !seq_length in H. lia. }
    replace n with (d + (n - d)) in H by lia. rewrite seq_app in H.
    assert (Ep : pt_pos y = p). { destruct d as [|d]; [lia|]. cbn in H. injection H as H _. exact H. }
    rewrite Ep in H. apply app_inv_head in H. destruct (IH _ _ (Forall_inv_tail HF) Hd H) as [A B]. cbn [List.length]. split; [nia|].
    intros [|k] x E; cbn [nth_error] in E.
    + injection E as <-. lia.
    + rewrite (B k x E). lia.
Qed.
Definition uniform (s : string) (d : nat) (l : list pol) : Prop := forall x, In x l -> pt_sec x = s -> pt_dim x = d.
Lemma filter_none {A} (f : A -> bool) l : (forall x, In x l -> f x = false) -> filter f l = [].
Proof. induction l as [|x l IH]; intros H; [reflexivity|]. cbn [filter]. rewrite (H x (or_introl eq_refl)). apply IH. intros y Hy. apply H. now right. Qed.
Lemma strip_uniform s d l l' : map strip l' = map strip l -> uniform s d l -> uniform s d l'.
Proof.
  intros H U x Hx Hs. apply (in_map strip) in Hx. rewrite H in Hx. apply in_map_iff in Hx. destruct Hx as [y [E Hy]]. unfold strip in E. injection E as E1 E2.
  rewrite <- E2. apply U; [exact Hy | congruence].
Qed.
Lemma map_section_uniform l : exists l' w, map_section l = Ok (l', w) /\ map strip l' = map strip l /\
  forall s d, In s names -> d = 1 \/ d = 3 -> uniform s d l -> index_get (w_n w) s = Some (d * count s d l) /\
    forall i y, nth_error l i = Some y -> pt_sec y = s -> nth_error l' i = Some (mkPT s (d * count s d (firstn i l)) d).
Proof.
  destruct (map_names_ok names names_nodup (incl_refl _) l (mkW index_default index_default index_default)) as [l' [w [E [Hs [T _]]]]].
  exists l', w. split; [exact E|]. split; [exact Hs|]. intros s d Hn Hd U. destruct (T s Hn) as [n [T1 [T2 _]]].
  pose proof (strip_uniform s d l l' Hs U) as U'.
  assert (Hz : forall e, e <> d -> filter (sel s e) l' = []).
  { intros e He. apply filter_none. intros x Hx. unfold sel. destruct (String.eqb_spec (pt_sec x) s) as [Es|]; [|reflexivity]. cbn [andb]. apply Nat.eqb_neq. rewrite (U' x Hx Es). congruence. }
  assert (T3 : flat_map cells (filter (sel s d) l') = seq 0 n).
  { destruct Hd as [-> | ->]; rewrite ?(Hz 1), ?(Hz 2), ?(Hz 3) in T2 by discriminate; rewrite ?app_nil_r in T2; exact T2. }
  assert (HF : Forall (fun x => pt_dim x = d) (filter (sel s d) l')).
  { apply Forall_forall. intros x Hx. apply filter_In in Hx. destruct Hx as [_ Hx]. unfold sel in Hx. apply andb_prop in Hx. apply Nat.eqb_eq. exact (proj2 Hx). }
  destruct (cells_pos _ d 0 n HF ltac:(lia) T3) as [A B]. rewrite (count_strip s d l l') by congruence. fold (count s d l') in A. split; [rewrite T1, A; reflexivity|].
  intros i y Hy Es.
  assert (Hx : exists x, nth_error l' i = Some x /\ strip x = strip y).
  { pose proof (f_equal (fun z => nth_error z i) Hs) as Hi. cbn beta in Hi. rewrite !nth_error_map, Hy in Hi. destruct (nth_error l' i) as [x|]; [|discriminate Hi]. exists x. split; [reflexivity|]. cbn in Hi. congruence. }
  destruct Hx as [x [Hx Ex]]. unfold strip in Ex. injection Ex as Ex1 Ex2.
  assert (Ed : pt_dim x = d) by (rewrite Ex2; apply U; [eapply nth_error_In, Hy | exact Es]).
  assert (Hsel : sel s d x = true) by (unfold sel; rewrite Ex1, Es, Ed, String.eqb_refl, Nat.eqb_refl; reflexivity).
  pose proof (B _ _ (filter_nth _ _ _ _ Hx Hsel)) as Hp. cbn [Nat.add] in Hp. fold (count s d (firstn i l')) in Hp.
  rewrite (count_strip s d (firstn i l) (firstn i l')) by (rewrite <- !firstn_map; f_equal; congruence).
  rewrite Hx. destruct x as [a b c]. cbn in *. congruence.
Qed.

(* n columns of a section and of its extension *)
Definition pairs (a b : string) (d n : nat) : list pol := concat (repeat [mkPT a 0 d; mkPT b 0 d] n).
Lemma pairs_app a b d n m : pairs a b d (n + m) = pairs a b d n ++ pairs a b d m.
Proof. unfold pairs. now rewrite repeat_app, concat_app. Qed.
Lemma pairs_len a b d n : List.length (pairs a b d n) = 2 * n.
Proof. unfold pairs. induction n as [|n IH]; [reflexivity|]. cbn [repeat concat app List.length] in *. lia. Qed.
Lemma pairs_S a b d n : pairs a b d (n + 1) = pairs a b d n ++ [mkPT a 0 d; mkPT b 0 d].
Proof. rewrite pairs_app. reflexivity. Qed.
Lemma pairs_in a b d n x : In x (pairs a b d n) -> x = mkPT a 0 d \/ x = mkPT b 0 d.
Proof. unfold pairs. intros H. apply in_concat in H. destruct H as [l [Hl Hx]]. apply repeat_spec in Hl. subst l. destruct Hx as [<-|[<-|[]]]; auto. Qed.
Lemma count_app s e l l' : count s e (l ++ l') = count s e l + count s e l'.
Proof. unfold count. now rewrite filter_app, app_length. Qed.
Lemma count_pairs s e a b d n : count s e (pairs a b d n) = n * (count s e [mkPT a 0 d; mkPT b 0 d]).
Proof. induction n as [|n IH]; [reflexivity|]. change (pairs a b d (S n)) with ([mkPT a 0 d; mkPT b 0 d] ++ pairs a b d n). rewrite count_app, IH. lia. Qed.
Lemma pairs_nth a b d n k l r : k < n -> nth_error (l ++ pairs a b d n ++ r) (List.length l + 2 * k) = Some (mkPT a 0 d) /\ nth_error (l ++ pairs a b d n ++ r) (List.length l + 2 * k + 1) = Some (mkPT b 0 d) /\
  firstn (List.length l + 2 * k) (l ++ pairs a b d n ++ r) = l ++ pairs a b d k /\ firstn (List.length l + 2 * k + 1) (l ++ pairs a b d n ++ r) = l ++ pairs a b d k ++ [mkPT a 0 d].
Proof.
  intros Hk. replace n with (k + (1 + (n - k - 1))) by lia. rewrite !pairs_app. change (pairs a b d 1) with [mkPT a 0 d; mkPT b 0 d].
  set (q := pairs a b d k). assert (Hq : List.length q = 2 * k) by apply pairs_len. set (z := pairs a b d (n - k - 1)). clearbody q z.
  replace (l ++ (q ++ [mkPT a 0 d; mkPT b 0 d] ++ z) ++ r) with ((l ++ q) ++ mkPT a 0 d :: mkPT b 0 d :: z ++ r) by (rewrite <- !app_assoc; reflexivity).
  assert (Hl : List.length (l ++ q) = List.length l + 2 * k) by (rewrite app_length; lia). rewrite <- Hl.
  split; [rewrite nth_error_app2, Nat.sub_diag by lia; reflexivity|].
  split; [rewrite nth_error_app2 by lia; replace (List.length (l ++ q) + 1 - List.length (l ++ q)) with 1 by lia; reflexivity|].
  split; [rewrite firstn_app, firstn_all, Nat.sub_diag; cbn [firstn]; now rewrite app_nil_r|].
  rewrite firstn_app, firstn_all2 by lia. replace (List.length (l ++ q) + 1 - List.length (l ++ q)) with 1 by lia. cbn [firstn]. now rewrite <- app_assoc.
Qed.

(** ** code over a longer table *)
Section Prefix.
  Variables (tbl ext : list expr).
  Hypothesis Hclosed : forall i e, nth_error tbl i = Some e -> forall p k, In k (exp_refs p e) -> snd k < List.length tbl.
  Lemma deps_same (g h : context -> nat -> bool -> res context) :
    (forall c i p, i < List.length tbl -> g c i p = h c i p) ->
    forall e p c, (forall k, In k (exp_refs p e) -> snd k < List.length tbl) -> calculate_deps g p e c = calculate_deps h p e c.
  Proof.
    intros H e. induction e as [op id next value values k kp IH] using expr_ind'. intros p c Hr. rewrite exp_refs_eq in Hr. cbn [e_op e_id e_next e_values] in Hr. cbn [calculate_deps].
    assert (E1 : (match op with OExp => do i <- CodegenModel.unwrap id; if p && next then Err else g c i (p || next) | _ => Ok c end) =
                 (match op with OExp => do i <- CodegenModel.unwrap id; if p && next then Err else h c i (p || next) | _ => Ok c end)).
    { destruct op; try reflexivity. destruct id as [i|]; [|reflexivity]. cbn [CodegenModel.unwrap bind]. destruct (p && next); [reflexivity|]. apply H. exact (Hr (next || p, i) (or_introl eq_refl)). }
    rewrite E1. clear E1. set (first := match op with OExp => _ | _ => Ok c end). clearbody first. destruct first as [c1| | |]; try reflexivity. cbn [bind].
    assert (Hv : forall q, In q (exps_refs p values) -> snd q < List.length tbl) by (intros q Hq; apply Hr, in_or_app; now right).
    clear Hr. revert c1. induction IH as [|x l Hx _ IHl]; intros c1; [reflexivity|]. cbn [exps_refs] in Hv.
    rewrite (Hx p c1) by (intros q Hq; apply Hv, in_or_app; now left). destruct (calculate_deps h p x c1) as [c2| | |]; try reflexivity. cbn [bind]. apply IHl. intros q Hq. apply Hv, in_or_app. now right.
  Qed.
  Lemma gen_prefix fuel : forall c i p, i < List.length tbl -> pil_code_gen fuel (tbl ++ ext) None false c i p = pil_code_gen fuel tbl None false c i p.
  Proof.
    induction fuel as [|fuel IH]; intros c i p Hi; [reflexivity|]. cbn [pil_code_gen]. destruct (key_in (p, i) (x_calc c)); [reflexivity|].
    unfold vget. rewrite nth_error_app1 by exact Hi. destruct (nth_error tbl i) as [e|] eqn:He; [|reflexivity]. cbn [bind].
    rewrite (deps_same _ (pil_code_gen fuel tbl None false)) by (try exact IH; intros k Hk; exact (Hclosed i e He p k Hk)). reflexivity.
  Qed.
  Lemma gens_prefix fuel ids : forall c, Forall (fun i => i < List.length tbl) ids -> NGen.gens (tbl ++ ext) fuel ids c = NGen.gens tbl fuel ids c.
  Proof.
    induction ids as [|i ids IH]; intros c H; [reflexivity|]. unfold NGen.gens. cbn [foldM]. rewrite (gen_prefix fuel c i false (Forall_inv H)).
    destruct (pil_code_gen fuel tbl None false c i false) as [c1| | |]; try reflexivity. cbn [bind]. exact (IH c1 (Forall_inv_tail H)).
  Qed.
End Prefix.
