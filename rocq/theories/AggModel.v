(* Model of the wiring of the templates Main that starky/src/stark_verifier_circom.rs writes around the template StarkVerifier: which
   inputs exist and what they are connected to. An input array is one value, its dimensions are not modelled. The option
   enable_input is off (prove.rs:135). Aggregation is on with verkey_input only: without it the generator writes two templates Main. *)
From Verif Require Import Base.
Open Scope nat_scope.

(* the names: publics, root{i}, rootC, evals, s0_vals{t}, s0_valsC, s0_siblings{t}, s0_siblingsC, s{s}_root, s{s}_vals, s{s}_siblings, finalPol *)
Inductive field : Type :=
| GPub | GRoot (i : nat) | GRootC | GEvals | GVals (t : nat) | GValsC | GSib (t : nat) | GSibC
| GSRoot (s : nat) | GSVals (s : nat) | GSSib (s : nat) | GFinal.
(* the prefix of an input of Main: none, a_ or b_ *)
Inductive side : Type := STop | SA | SB.
(* [w_cm2], [w_cm3]: map_sectionsN of cm2_2ns, cm3_2ns is above 0; [w_steps] is the number of steps; [w_verkey], [w_agg]: the options *)
Record wcfg : Type := mkW { w_cm2 : bool; w_cm3 : bool; w_steps : nat; w_verkey : bool; w_agg : bool }.
Definition opt (b : bool) (l : list field) : list field := if b then l else [].
Definition laters (n : nat) : list nat := seq 1 (n - 1).

(* lines 815-950: the inputs of StarkVerifier *)
Definition sv_inputs (c : wcfg) : list field :=
  [GPub; GRoot 1; GRoot 2; GRoot 3; GRoot 4] ++ opt (w_verkey c) [GRootC] ++ [GEvals; GVals 1] ++ opt (w_cm2 c) [GVals 2] ++
  opt (w_cm3 c) [GVals 3] ++ [GVals 4; GValsC; GSib 1] ++ opt (w_cm2 c) [GSib 2] ++ opt (w_cm3 c) [GSib 3] ++ [GSib 4; GSibC] ++
  map GSRoot (laters (w_steps c)) ++ flat_map (fun s => [GSVals s; GSSib s]) (laters (w_steps c)) ++ [GFinal].
(* lines 1623-1650, 1783-1811, 2020-2054 and 2061-2091: the inputs of a component StarkVerifier that are connected, each to the input of
   Main of its name (with the prefix, in the aggregation); rootC only in the second and third *)
Definition sv_wires (c : wcfg) : list field :=
  [GPub; GRoot 1; GRoot 2; GRoot 3; GRoot 4] ++ opt (w_verkey c) [GRootC] ++ [GEvals; GVals 1; GVals 3; GVals 4; GValsC; GSib 1; GSib 3;
   GSib 4; GSibC; GFinal] ++ flat_map (fun s => [GSRoot s; GSVals s; GSSib s]) (laters (w_steps c)).
(* line 2108: the public inputs of Main *)
Definition main_public : list field := [GPub; GRootC].

Section Main.
Variable V : (field -> list Z) -> Prop.          (* the statements of StarkVerifier, of its inputs *)
Definition wired (c : wcfg) (a b : field -> list Z) : Prop := Forall (fun f => a f = b f) (sv_wires c).
(* lines 1502-1660 and 1662-1821 without aggregation, 1827-2098 with it *)
Definition main_holds (c : wcfg) (top : side -> field -> list Z) : Prop :=
  if w_agg c then exists a b, wired c a (top SA) /\ V a /\ wired c b (top SB) /\ V b
  else exists a, wired c a (top STop) /\ V a.
End Main.
