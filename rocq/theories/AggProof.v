(* The wiring of Main. *)
From Verif Require Import Base AggModel.
From Coq Require Import Lia.
Open Scope nat_scope.

(* V looks at the declared inputs only *)
Definition reads (V : (field -> list Z) -> Prop) (ins : list field) : Prop := forall a b, (forall f, In f ins -> a f = b f) -> V a -> V b.

Lemma all_wired c : w_cm2 c = false -> w_cm3 c = true -> forall f, In f (sv_inputs c) -> In f (sv_wires c).
Proof.
  intros H2 H3 f. unfold sv_inputs, sv_wires. rewrite H2, H3. cbn [opt]. rewrite !in_app_iff, in_map_iff, !in_flat_map. cbn [In].
  intros H. repeat match goal with H : _ \/ _ |- _ => destruct H end; subst; try contradiction; try tauto.
  - destruct H as (s & <- & Hs). right; right; right. exists s. split; [exact Hs|left; reflexivity].
  - destruct H as (s & Hs & [<- |[<- |[]]]); right; right; right; exists s; (split; [exact Hs|cbn [In]; tauto]).
Qed.
Lemma wired_iff c a b : wired c a b <-> forall f, In f (sv_wires c) -> a f = b f.
Proof. unfold wired. apply Forall_forall. Qed.
Lemma one_side V c x : w_cm2 c = false -> w_cm3 c = true -> reads V (sv_inputs c) -> (exists a, wired c a x /\ V a) <-> V x.
Proof.
  intros H2 H3 HR. split.
  - intros (a & HW & HV). apply (HR a x); [|exact HV]. intros f Hf. apply (proj1 (wired_iff c a x) HW). apply all_wired; assumption.
  - intros HV. exists x. split; [apply wired_iff; reflexivity|exact HV].
Qed.
Lemma main_plain V c top : w_agg c = false -> w_cm2 c = false -> w_cm3 c = true -> reads V (sv_inputs c) -> main_holds V c top <-> V (top STop).
Proof. intros HA H2 H3 HR. unfold main_holds. rewrite HA. apply one_side; assumption. Qed.
Lemma main_agg V c top : w_agg c = true -> w_cm2 c = false -> w_cm3 c = true -> reads V (sv_inputs c) ->
  main_holds V c top <-> V (top SA) /\ V (top SB).
Proof.
  intros HA H2 H3 HR. unfold main_holds. rewrite HA. split.
  - intros (a & b & WA & VA & WB & VB). split; apply (one_side V c _ H2 H3 HR); [exists a|exists b]; split; assumption.
  - intros (VA & VB). apply (one_side V c _ H2 H3 HR) in VA. apply (one_side V c _ H2 H3 HR) in VB. destruct VA as (a & WA & VA), VB as (b & WB & VB).
    exists a, b. repeat split; assumption.
Qed.
Lemma agg_free V c top pub : w_agg c = true -> main_holds V c top ->
  main_holds V c (fun s => match s with STop => pub | _ => top s end).
Proof. intros HA. unfold main_holds. rewrite HA. exact (fun H => H). Qed.
Lemma rootc_free V c top rc : w_agg c = false -> w_verkey c = false -> main_holds V c top ->
  main_holds V c (fun s f => match f with GRootC => rc | _ => top s f end).
Proof.
  intros HA HK. unfold main_holds. rewrite HA. intros (a & HW & HV). exists a. split; [|exact HV]. apply wired_iff. intros f Hf.
  rewrite (proj1 (wired_iff c _ _) HW f Hf). destruct f; try reflexivity. exfalso. revert Hf. unfold sv_wires. rewrite HK. cbn [opt].
  rewrite !in_app_iff, in_flat_map. cbn [In]. intros H. repeat match goal with H : _ \/ _ |- _ => destruct H end; try discriminate; try contradiction.
  destruct H as (s & _ & [E|[E|[E|[]]]]); discriminate.
Qed.
Lemma cm2_open c : w_cm2 c = true -> In (GVals 2) (sv_inputs c) /\ ~ In (GVals 2) (sv_wires c) /\ In (GSib 2) (sv_inputs c) /\ ~ In (GSib 2) (sv_wires c).
Proof.
  intros H2. unfold sv_inputs, sv_wires. rewrite H2. rewrite !in_app_iff, !in_flat_map. cbn [In opt].
  assert (N : forall f, (exists s, In s (laters (w_steps c)) /\ (GSRoot s = f \/ GSVals s = f \/ GSSib s = f \/ False)) -> f <> GVals 2 /\ f <> GSib 2).
  { intros f (s & _ & [<- |[<- |[<- |[]]]]); split; discriminate. }
  assert (K : forall f, In f (opt (w_verkey c) [GRootC]) -> f = GRootC) by (intros f; destruct (w_verkey c); cbn [opt In]; [intros [<- |[]]; reflexivity|intros []]).
  split; [tauto|]. split; [|split; [tauto|]].
  - intros H. repeat match goal with H : _ \/ _ |- _ => destruct H end; try discriminate; try contradiction.
    + apply K in H. discriminate.
    + apply N in H. destruct H as (H & _). apply H. reflexivity.
  - intros H. repeat match goal with H : _ \/ _ |- _ => destruct H end; try discriminate; try contradiction.
    + apply K in H. discriminate.
    + apply N in H. destruct H as (_ & H). apply H. reflexivity.
Qed.
Lemma cm3_extra c : w_cm3 c = false -> In (GVals 3) (sv_wires c) /\ ~ In (GVals 3) (sv_inputs c).
Proof.
  intros H3. unfold sv_inputs, sv_wires. rewrite H3. rewrite !in_app_iff, in_map_iff, !in_flat_map. cbn [In opt]. split; [tauto|].
  assert (K : forall f, In f (opt (w_verkey c) [GRootC]) -> f = GRootC) by (intros f; destruct (w_verkey c); cbn [opt In]; [intros [<- |[]]; reflexivity|intros []]).
  assert (K2 : forall x f, In f (opt (w_cm2 c) [x]) -> f = x) by (intros x f; destruct (w_cm2 c); cbn [opt In]; [intros [<- |[]]; reflexivity|intros []]).
  intros H. repeat match goal with H : _ \/ _ |- _ => destruct H end; try discriminate; try contradiction.
  - apply K in H. discriminate.
  - apply K2 in H. discriminate.
  - apply K2 in H. discriminate.
  - destruct H as (s & E & _). discriminate.
  - destruct H as (s & _ & [E|[E|[]]]); discriminate.
Qed.
