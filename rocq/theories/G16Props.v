(* Field elements, keys and proofs of Groth16 as text. *)
From Verif Require Import Base CodegenModel PilNumModel G16Model G16Proof.
From Coq Require Import Lia.
Open Scope Z_scope.
Open Scope list_scope.
Open Scope res_scope.

(* C94: a scalar is written in decimal without leading zeros or with 16 hexadecimal digits for each limb, and read back
   as it was; decimal texts are read modulo q, those with leading zeros are refused. *)
Theorem C94_written_and_read : forall limbs q v to_hex, (0 < limbs)%nat -> 0 <= v < q -> q <= 2 ^ (64 * Z.of_nat limbs) ->
  exists t ds, render_scalar_to_str limbs v to_hex = Ok t /\ render_str_to_scalar q t = Ok v /\
    (if to_hex then t = [48; 120] ++ map dchar ds /\ length ds = (16 * limbs)%nat /\ Forall (is_digit 16) ds /\ number 16 ds = v
     else t = decimal ds /\ no_leading_zero ds /\ Forall (is_digit 10) ds /\ number 10 ds = v).
Proof. exact scalar_written. Qed.
Print Assumptions C94_written_and_read.
Theorem C94_decimal : forall q ds, 0 < q -> Forall (is_digit 10) ds ->
  (no_leading_zero ds -> render_str_to_scalar q (decimal ds) = Ok (number 10 ds mod q)) /\ (~ no_leading_zero ds -> render_str_to_scalar q (decimal ds) = Panic).
Proof. exact scalar_read. Qed.
Print Assumptions C94_decimal.
Theorem C94_public_input : forall limbs q l to_hex, (0 < limbs)%nat -> q <= 2 ^ (64 * Z.of_nat limbs) -> Forall (fun v => 0 <= v < q) l ->
  exists ts, mapM (fun v => render_scalar_to_str limbs v to_hex) l = Ok ts /\ to_public_input q ts = Ok l.
Proof. exact inputs_text. Qed.
Print Assumptions C94_public_input.
(* so a public input has more than one text, even in decimal without leading zeros *)
Theorem C94_one_text_refuted : forall q v, 0 < q -> 0 <= v < q -> exists t t', t <> t' /\ render_str_to_scalar q t = Ok v /\ render_str_to_scalar q t' = Ok v.
Proof. exact scalar_alias. Qed.
Print Assumptions C94_one_text_refuted.
Example C94_nonvacuous : render_scalar_to_str 1 90 false = Ok [57; 48] /\ render_str_to_scalar 97 [57; 48] = Ok 90 /\ render_str_to_scalar 97 [49; 56; 55] = Ok 90 /\
  render_scalar_to_str 1 90 true = Ok ([48; 120] ++ repeat 48 14 ++ [53; 97]) /\ render_str_to_scalar 97 [48; 120; 53; 97] = Ok 90 /\ render_str_to_scalar 97 [48; 57] = Panic /\
  no_leading_zero [9; 0] /\ Forall (is_digit 10) [9; 0].
Proof.
  split; [vm_compute; reflexivity|]. split; [vm_compute; reflexivity|]. split; [vm_compute; reflexivity|]. split; [vm_compute; reflexivity|]. split; [vm_compute; reflexivity|].
  split; [vm_compute; reflexivity|]. split; [intros X; discriminate X|]. repeat constructor; unfold is_digit; lia.
Qed.

(* C95: with the GPU features the texts are the same, read as the same elements, but values from the modulus on are
   refused, so that nothing but canonical elements is read. *)
Theorem C95_written_and_read : forall bytes q v to_hex, (0 < bytes)%nat -> 0 <= v < q -> q <= 256 ^ Z.of_nat bytes ->
  exists t ds, render_fp_to_str bytes v to_hex = Ok t /\ render_str_to_fp bytes q t = Ok v /\
    (if to_hex then t = [48; 120] ++ map dchar ds /\ length ds = (2 * bytes)%nat /\ Forall (is_digit 16) ds /\ number 16 ds = v
     else t = decimal ds /\ no_leading_zero ds /\ Forall (is_digit 10) ds /\ number 10 ds = v).
Proof. exact fp_written. Qed.
Print Assumptions C95_written_and_read.
Theorem C95_decimal : forall bytes q ds, (0 < bytes)%nat -> q <= 256 ^ Z.of_nat bytes -> ds <> [] -> Forall (is_digit 10) ds ->
  render_str_to_fp bytes q (decimal ds) = if number 10 ds <? q then Ok (number 10 ds) else Panic.
Proof. exact fp_read. Qed.
Print Assumptions C95_decimal.
Theorem C95_canonical : forall bytes q t v, render_str_to_fp bytes q t = Ok v -> 0 <= v < q.
Proof. exact fp_canonical. Qed.
Print Assumptions C95_canonical.
Theorem C95_both_agree : forall limbs q v to_hex, (0 < limbs)%nat -> 0 <= v < q -> q <= 2 ^ (64 * Z.of_nat limbs) ->
  exists t, render_scalar_to_str limbs v to_hex = Ok t /\ render_fp_to_str (8 * limbs) v to_hex = Ok t /\ render_str_to_scalar q t = Ok v /\ render_str_to_fp (8 * limbs) q t = Ok v.
Proof. exact readers_agree. Qed.
Print Assumptions C95_both_agree.
(* they do not agree on every text: "0x" is zero and "+1_0" is ten with the GPU features, and both are refused without *)
Theorem C95_all_texts_refuted : forall bytes q, (0 < bytes)%nat -> 10 < q ->
  render_str_to_fp bytes q [48; 120] = Ok 0 /\ render_str_to_scalar q [48; 120] = Panic /\ render_str_to_fp bytes q [43; 49; 95; 48] = Ok 10 /\ render_str_to_scalar q [43; 49; 95; 48] = Panic.
Proof. exact empty_hex. Qed.
Print Assumptions C95_all_texts_refuted.
Example C95_nonvacuous : render_fp_to_str 1 90 true = Ok [48; 120; 53; 97] /\ render_str_to_fp 1 97 [57; 48] = Ok 90 /\ render_str_to_fp 1 97 [48; 57; 48] = Ok 90 /\
  render_str_to_fp 1 97 [57; 55] = Panic /\ render_str_to_fp 1 97 [48; 120; 48; 48; 48] = Panic /\ (97 <= 256 ^ Z.of_nat 1).
Proof. split; [vm_compute; reflexivity|]. split; [vm_compute; reflexivity|]. split; [vm_compute; reflexivity|]. split; [vm_compute; reflexivity|]. split; [vm_compute; reflexivity|]. vm_compute. discriminate. Qed.

(* C96: verifying keys and proofs are read back as they were written, whichever texts their coordinates are given, if
   the points are determined by their coordinates. *)
Theorem C96_key : forall P1 P2 xy1 xy2 mk1 mk2 show read q, texts show read q -> forall k, key_points P1 P2 xy1 xy2 mk1 mk2 q k ->
  exists f, serialize_vk P1 P2 xy1 xy2 show k = Ok f /\ to_verification_key P1 P2 mk1 mk2 read f = Ok k.
Proof. exact key_texts. Qed.
Print Assumptions C96_key.
Theorem C96_proof : forall P1 P2 xy1 xy2 mk1 mk2 show read q, texts show read q -> forall p, proof_points P1 P2 xy1 xy2 mk1 mk2 q p ->
  exists f, serialize_proof P1 P2 xy1 xy2 show p = Ok f /\ to_proof P1 P2 mk1 mk2 read f = Ok p.
Proof. exact proof_texts. Qed.
Print Assumptions C96_proof.
(* The point at infinity is not: from_xy_unchecked and from_raw_unchecked with false make no such point. *)
Theorem C96_infinity_refuted : forall P1 P2 (mk1 : Z -> Z -> P1) (mk2 : Z * Z -> Z * Z -> P2) (inf1 : P1 -> bool) (inf2 : P2 -> bool) read,
  (forall x y, inf1 (mk1 x y) = false) -> (forall x y, inf2 (mk2 x y) = false) -> forall f p, inf1 (pf_a _ _ p) = true \/ inf2 (pf_b _ _ p) = true \/ inf1 (pf_c _ _ p) = true ->
  to_proof P1 P2 mk1 mk2 read f <> Ok p.
Proof. exact proof_infinite. Qed.
Print Assumptions C96_infinity_refuted.
Example C96_nonvacuous : let show := fun v => render_scalar_to_str 1 v false in let p := mkPf (Z * Z) ((Z * Z) * (Z * Z)) (1, 2) ((3, 4), (5, 96)) (0, 10) in
  texts show (render_str_to_scalar 97) 97 /\ proof_points _ _ (fun p => p) (fun p => p) (fun x y => (x, y)) (fun x y => (x, y)) 97 p /\
  serialize_proof _ _ (fun p => p) (fun p => p) show p = Ok (mkPF (mkG1 [49] [50]) (mkG2 ([51], [52]) ([53], [57; 54])) (mkG1 [48] [49; 48])).
Proof.
  cbv zeta. split; [|split].
  - left. exists 1%nat, false. split; [lia|]. split; [vm_compute; discriminate|]. split; reflexivity.
  - unfold proof_points, point1, point2. cbn. repeat split; lia.
  - vm_compute. reflexivity.
Qed.
