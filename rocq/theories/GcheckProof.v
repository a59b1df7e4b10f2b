(* The comparisons of the circuits against the verifier's. *)
From Verif Require Import Base GcheckModel.
From Coq Require Import Lia.
Open Scope nat_scope.

Lemma in_upto {A} n (f : nat -> list A) x : In x (upto n f) <-> exists i, i < n /\ In x (f i).
Proof.
  unfold upto. rewrite in_flat_map. split; intros (i & Hi & H); exists i; split; try exact H; apply in_seq in Hi || apply in_seq; lia.
Qed.
Lemma in_single {A} (a x : A) : In x [a] <-> a = x.
Proof. cbn. split; [intros [H|[]]; exact H|intros H; left; exact H]. Qed.
Lemma in_opened g t : 0 < gs_cm2 g -> 0 < gs_cm3 g -> In t (opened g).
Proof.
  intros H2 H3. unfold opened. apply Nat.ltb_lt in H2, H3. rewrite H2, H3. destruct t; cbn; tauto.
Qed.
Lemma opened_not g t : In t (opened g) -> (t = Tr2 -> 0 < gs_cm2 g) /\ (t = Tr3 -> 0 < gs_cm3 g).
Proof.
  unfold opened. rewrite !in_app_iff. destruct (0 <? gs_cm2 g) eqn:E2, (0 <? gs_cm3 g) eqn:E3;
    rewrite ?Nat.ltb_lt, ?Nat.ltb_ge in *; cbn; intros H; split; intros ->; try lia;
    repeat match goal with H : _ \/ _ |- _ => destruct H | H : False |- _ => destruct H end; discriminate.
Qed.

(* membership, by kind *)
Definition is_last (g : gstruct) (d : nat) (c : check) : Prop := exists k e, c = CkLast k e /\ d <= k < 2 ^ gs_last g /\ e < 3.
Lemma in_last d n c : In c (flat_map (fun k => map (CkLast k) [0; 1; 2]) (seq d (n - d))) <-> exists k e, c = CkLast k e /\ d <= k < n /\ e < 3.
Proof.
  rewrite in_flat_map. split.
  - intros (k & Hk & H). apply in_seq in Hk. cbn in H. exists k.
    destruct H as [<- |[<- |[<- |[]]]]; eexists; (split; [reflexivity|lia]).
  - intros (k & e & -> & Hk & He). exists k. split; [apply in_seq; lia|]. cbn. destruct e as [|[|[|e]]]; [tauto..|lia].
Qed.

Definition wanted (roots : nat) (g : gstruct) (d : nat) (trees : tree -> Prop) (c : check) : Prop :=
  match c with
  | CkRoot t q j => trees t /\ q < gs_queries g /\ j < roots
  | CkQuery q e => q < gs_queries g /\ e < 3
  | CkFold s q e => 1 <= s < gs_steps g /\ q < gs_queries g /\ e < 3
  | CkStepRoot s q j => 1 <= s < gs_steps g /\ q < gs_queries g /\ j < roots
  | CkLast k e => d <= k < 2 ^ gs_last g /\ e < 3
  end.
Lemma in_later g s : In s (gs_later g) <-> 1 <= s < gs_steps g.
Proof. unfold gs_later. rewrite in_seq. lia. Qed.

Ltac inn := repeat (rewrite in_app_iff || rewrite in_upto || rewrite in_flat_map || rewrite in_single || rewrite in_map_iff).
Ltac dd := repeat match goal with
  | H : _ \/ _ |- _ => destruct H | H : exists _, _ |- _ => destruct H | H : _ /\ _ |- _ => destruct H
  | H : In _ (_ ++ _) |- _ => rewrite in_app_iff in H | H : In _ (upto _ _) |- _ => rewrite in_upto in H
  | H : In _ (flat_map _ (gs_later _)) |- _ => rewrite in_flat_map in H | H : In _ [_] |- _ => rewrite in_single in H
  | H : In _ (map _ _) |- _ => rewrite in_map_iff in H | H : In _ (gs_later _) |- _ => rewrite in_later in H
  | H : In _ (flat_map (fun k => map (CkLast k) _) _) |- _ => rewrite in_last in H
  end; subst; cbn [wanted].

Lemma v_in w g c : In c (v_checks w g) -> wanted w g (2 ^ (gs_last g - gs_blowup g) + 1) (fun _ => True) c.
Proof. unfold v_checks. intros H. dd; repeat split; try assumption; try lia. Qed.

Lemma oc_has g c : wanted 1 g (2 ^ (gs_last g - gs_blowup g)) (fun t => In t (opened g)) c -> In c (oc_checks g).
Proof.
  unfold oc_checks, last_checks. destruct c as [t q j|q e|s q e|s q j|k e]; cbn [wanted].
  - intros (Ht & Hq & Hj). inn. left. exists q. split; [exact Hq|]. inn. left. exists t. split; [f_equal; lia|exact Ht].
  - intros (Hq & He). inn. left. exists q. split; [exact Hq|]. inn. right. exists e. split; [exact He|]. left. reflexivity.
  - intros (Hs & Hq & He). inn. right. left. exists s. split; [apply in_later; exact Hs|]. inn. exists q. split; [exact Hq|]. inn. left.
    exists e. split; [exact He|]. left. reflexivity.
  - intros (Hs & Hq & Hj). inn. right. left. exists s. split; [apply in_later; exact Hs|]. inn. exists q. split; [exact Hq|]. inn. right.
    f_equal. lia.
  - intros (Hk & He). rewrite !in_app_iff. right. right. apply in_last. exists k, e. split; [reflexivity|]. split; assumption.
Qed.
Lemma gl_has g c : 2 <= gs_steps g -> wanted 4 g (2 ^ (gs_last g - gs_blowup g)) (fun t => In t (opened g)) c -> In c (gl_checks g).
Proof.
  intros H2. assert (HL : In 1 (gs_later g)) by (apply in_later; lia).
  unfold gl_checks, last_checks. destruct c as [t q j|q e|s q e|s q j|k e]; cbn [wanted].
  - intros (Ht & Hq & Hj). inn. left. exists 1. split; [exact HL|]. inn. exists q. split; [exact Hq|]. inn. left. exists q. split; [exact Hq|].
    inn. left. exists j. split; [exact Hj|]. inn. exists t. split; [reflexivity|exact Ht].
  - intros (Hq & He). inn. left. exists 1. split; [exact HL|]. inn. exists q. split; [exact Hq|]. inn. left. exists q. split; [exact Hq|].
    inn. right. exists e. split; [exact He|]. left. reflexivity.
  - intros (Hs & Hq & He). inn. left. exists s. split; [apply in_later; exact Hs|]. inn. exists q. split; [exact Hq|]. inn. right. left.
    exists e. split; [exact He|]. left. reflexivity.
  - intros (Hs & Hq & Hj). inn. left. exists s. split; [apply in_later; exact Hs|]. inn. exists q. split; [exact Hq|]. inn. right. right.
    exists j. split; [exact Hj|]. left. reflexivity.
  - intros (Hk & He). rewrite in_app_iff. right. apply in_last. exists k, e. split; [reflexivity|]. split; assumption.
Qed.
Lemma wanted_up w g c : 0 < gs_cm2 g -> 0 < gs_cm3 g -> wanted w g (2 ^ (gs_last g - gs_blowup g) + 1) (fun _ => True) c ->
  wanted w g (2 ^ (gs_last g - gs_blowup g)) (fun t => In t (opened g)) c.
Proof.
  intros H2 H3. destruct c; cbn [wanted]; try (intros H; exact H).
  - intros (_ & H). split; [apply in_opened; assumption|exact H].
  - intros (H & He). split; [lia|exact He].
Qed.

Lemma oc_sound agree g : 0 < gs_cm2 g -> 0 < gs_cm3 g -> accepts agree (oc_checks g) -> accepts agree (v_checks 1 g).
Proof.
  unfold accepts. rewrite !Forall_forall. intros H2 H3 H c Hc. apply H, oc_has, wanted_up; [exact H2|exact H3|]. exact (v_in 1 g c Hc).
Qed.
Lemma gl_sound agree g : 0 < gs_cm2 g -> 0 < gs_cm3 g -> 2 <= gs_steps g -> accepts agree (gl_checks g) -> accepts agree (v_checks 4 g).
Proof.
  unfold accepts. rewrite !Forall_forall. intros H2 H3 HS H c Hc. apply H, gl_has; [exact HS|]. apply wanted_up; [exact H2|exact H3|].
  exact (v_in 4 g c Hc).
Qed.
Lemma gl_single (agree : check -> Prop) g : gs_steps g = 1 -> (forall k e, agree (CkLast k e)) -> accepts agree (gl_checks g).
Proof.
  intros H1 HA. unfold accepts, gl_checks, gs_later. rewrite H1. cbn [Nat.sub seq flat_map app]. apply Forall_forall. intros c Hc.
  unfold last_checks in Hc. apply in_last in Hc. destruct Hc as (k & e & -> & _). apply HA.
Qed.
Lemma v_roots w g t q j : q < gs_queries g -> j < w -> In (CkRoot t q j) (v_checks w g).
Proof.
  intros Hq Hj. unfold v_checks. inn. left. exists q. split; [exact Hq|]. inn. left. exists j. split; [exact Hj|]. inn. exists t.
  split; [reflexivity|]. destruct t; cbn; tauto.
Qed.
Lemma root_in_gl g t q j : In (CkRoot t q j) (gl_checks g) -> In t (opened g).
Proof. unfold gl_checks, last_checks. intros H. dd; try discriminate; try congruence. Qed.
Lemma root_in_oc g t q j : In (CkRoot t q j) (oc_checks g) -> In t (opened g).
Proof. unfold oc_checks, last_checks. intros H. dd; try discriminate; try congruence. Qed.
Lemma empty_tree (agree : check -> Prop) g : gs_cm2 g = 0 -> (forall c, (forall q j, c <> CkRoot Tr2 q j) -> agree c) ->
  accepts agree (gl_checks g) /\ accepts agree (oc_checks g).
Proof.
  intros H2 HA. unfold accepts. rewrite !Forall_forall. split; intros c Hc; apply HA; intros q j ->.
  - apply root_in_gl in Hc. destruct (opened_not _ _ Hc) as (X & _). specialize (X eq_refl). lia.
  - apply root_in_oc in Hc. destruct (opened_not _ _ Hc) as (X & _). specialize (X eq_refl). lia.
Qed.
