(* Properties of the wiring of Main in the recursive circuits. *)
From Verif Require Import Base AggModel AggProof.
Open Scope nat_scope.

(* C113: without columns in the second tree and with columns in the third, Main accepts exactly if the verifier accepts its inputs; the
   aggregation exactly if the verifier accepts both halves *)
Theorem C113_single : forall V c top, w_agg c = false -> w_cm2 c = false -> w_cm3 c = true -> reads V (sv_inputs c) ->
  main_holds V c top <-> V (top STop).
Proof. exact main_plain. Qed.
Print Assumptions C113_single.
Theorem C113_aggregation : forall V c top, w_agg c = true -> w_cm2 c = false -> w_cm3 c = true -> reads V (sv_inputs c) ->
  main_holds V c top <-> V (top SA) /\ V (top SB).
Proof. exact main_agg. Qed.
Print Assumptions C113_aggregation.
(* refuted: that the public inputs of the aggregation are about the aggregated proofs. Every accepted assignment is accepted with any
   other publics and rootC *)
Theorem C113_publics_refuted : forall V c top pub, w_agg c = true -> main_holds V c top ->
  main_holds V c (fun s => match s with STop => pub | _ => top s end).
Proof. exact agg_free. Qed.
Print Assumptions C113_publics_refuted.
(* refuted: that the public rootC of Main is the root of the constants that was checked, if the root is written into the circuit *)
Theorem C113_root_refuted : forall V c top rc, w_agg c = false -> w_verkey c = false -> main_holds V c top ->
  main_holds V c (fun s f => match f with GRootC => rc | _ => top s f end).
Proof. exact rootc_free. Qed.
Print Assumptions C113_root_refuted.
(* refuted: that Main connects all inputs of the verifier, and only those: with columns in the second tree two stay open, without
   columns in the third an input is named that does not exist *)
Theorem C113_columns_refuted : forall c,
  (w_cm2 c = true -> In (GVals 2) (sv_inputs c) /\ ~ In (GVals 2) (sv_wires c) /\ In (GSib 2) (sv_inputs c) /\ ~ In (GSib 2) (sv_wires c)) /\
  (w_cm3 c = false -> In (GVals 3) (sv_wires c) /\ ~ In (GVals 3) (sv_inputs c)).
Proof. exact (fun c => conj (cm2_open c) (cm3_extra c)). Qed.
Print Assumptions C113_columns_refuted.
Example C113_nonvacuous : let V := fun a : field -> list Z => a GPub = [5%Z] in let top := fun (_ : side) (_ : field) => [5%Z] in
  reads V (sv_inputs (mkW false true 3 true true)) /\ main_holds V (mkW false true 3 true true) top /\
  main_holds V (mkW false true 3 false false) top /\ ~ main_holds V (mkW false true 3 true true) (fun _ _ => [6%Z]).
Proof.
  assert (R : forall c, reads (fun a : field -> list Z => a GPub = [5%Z]) (sv_inputs c)) by (intros c a b H E; rewrite <- (H GPub); [exact E|left; reflexivity]).
  split; [apply R|]. split; [apply main_agg; [reflexivity|reflexivity|reflexivity|apply R|split; reflexivity]|].
  split; [apply main_plain; [reflexivity|reflexivity|reflexivity|apply R|reflexivity]|].
  intros H. apply main_agg in H; [destruct H; discriminate|reflexivity|reflexivity|reflexivity|apply R].
Qed.
