(* Properties of the transcripts in the generated verifier circuits. *)
From Verif Require Import Base GlModel FrField HashModel HashProof TranscriptProof BnModel TranscriptBn
  CircModel PrimeCert CgenModel CgenProof CgenBn CgenToy.
From Coq Require Import String List Znumtheory.
Import ListNotations.
Open Scope nat_scope.

(* C103: whatever sequence of puts, challenges and permutations the generator is given, every assignment that satisfies the
   statements it writes has the challenges and query positions that TranscriptGL draws from the same values *)
Theorem C103_same : forall perm val h evs g, (forall i s, List.length (perm i s) = 12) -> val SZero = f0 ->
  Forall2 (fed val) h evs -> gg_run h gg_new = Ok g -> Forall (stm_gl perm val) (gg_code g) ->
  exists t, trun perm evs tr_new = Ok (map (reads (fun x => fint (val (SName x)))) h, t).
Proof. exact (fun perm val h evs g HL H0 HF HR HC => gl_transcript perm HL val H0 h evs gg_new tr_new g HF (new_sim val H0) HR HC). Qed.
Print Assumptions C103_same.
(* and it writes them for every sequence without empty permutations *)
Theorem C103_total : forall h, Forall (fun o => match o with OPerm _ n b => n * b <> 0 | _ => True end) h ->
  exists g, gg_run h gg_new = Ok g.
Proof. exact (fun h H => gg_total h H gg_new). Qed.
Print Assumptions C103_total.
Example C103_nonvacuous : (forall i s, List.length (toy_perm i s) = 12) /\ toy_val SZero = f0 /\
  Forall2 (fed toy_val) toy_ops [TPut [[fof 2]]; TField; TPerm 2 3] /\
  exists g, gg_run toy_ops gg_new = Ok g /\ Forall (stm_gl toy_perm toy_val) (gg_code g) /\
    map (reads (fun x => fint (toy_val (SName x)))) toy_ops = [[]; [7; 8; 9]; [2; 1]]%Z.
Proof.
  split; [intros; reflexivity|]. split; [reflexivity|]. split; [|exact toy_holds].
  repeat constructor.
Qed.
Example C103_nonvacuous_schedule : exists g, gg_run (gen_ops (Some 4) 2 3 2 4 8 10) gg_new = Ok g /\ gg_h g = 9 /\ gg_n2b g = 2.
Proof. eexists. split; [vm_compute; reflexivity|split; reflexivity]. Qed.

(* C104: the on-chain circuit's transcript, for every sequence: the challenge it reads has the words of some number of at
   most 255 bits that is the drawn field element modulo r, and the verifier's words are those of the element itself; with
   Num2Bits_strict (BN128) the query positions are the verifier's, and with Num2Bits(255) they are those of such numbers *)
Theorem C104_sound : forall r rinv hash_ex permq cperm strict val h evs g,
  prime r -> (2 ^ 192 <= r)%Z -> (forall i s, List.length (permq i s) = 17) ->
  (forall i s n, List.length i = 16 -> n <= 17 -> hash_ex i s n = Ok (firstn n (permq i s))) ->
  (forall i s, map (q_value r rinv) (permq i s) = cperm (map (q_value r rinv) i) (q_value r rinv s)) ->
  val SZero = 0%Z -> (forall s, (0 <= val s < r)%Z) -> (strict = true -> (r < 2 ^ 254)%Z) ->
  Forall2 (fedq r rinv val) h evs -> gq_run h gq_new = Ok g -> Forall (stm_q r cperm strict val) (gq_code g) ->
  exists outs t, qrun r rinv hash_ex evs tq_new = Ok (outs, t) /\
    Forall2 (agrees r strict (fun x => val (SName x))) h outs.
Proof.
  exact (fun r rinv hash_ex permq cperm strict val h evs g Hp Hb HL HO HR H0 HF HS H1 H2 H3 =>
    bn_transcript r rinv Hp Hb hash_ex permq HL HO cperm HR strict val H0 HF HS h evs gq_new tq_new g H1 (newq_sim r rinv val H0) H2 H3).
Qed.
Print Assumptions C104_sound.
(* refuted: that the circuit over BLS12-381 draws the verifier's positions.  Whatever the hash function, a drawn element below
   2^255 - r has two decompositions, and the prover may take the next position *)
Theorem C104_positions_refuted : forall cperm a,
  let x := nth 0 (cperm (a :: repeat 0%Z 15) 0%Z) 0%Z in (0 <= x < 2 ^ 255 - bls_q)%Z -> (0 <= a < bls_q)%Z ->
  exists g val val', gq_run [OPut (NBase "a") (Some 1); OPerm (NBase "ys") 1 8] gq_new = Ok g /\
    Forall (stm_q bls_q cperm false val) (gq_code g) /\ Forall (stm_q bls_q cperm false val') (gq_code g) /\
    val (SName (NIdx (NBase "a") 0)) = a /\ val' (SName (NIdx (NBase "a") 0)) = a /\
    reads (fun x => val (SName x)) (OPerm (NBase "ys") 1 8) = [(x mod 256)%Z] /\
    reads (fun x => val' (SName x)) (OPerm (NBase "ys") 1 8) = [((x + 1) mod 256)%Z].
Proof. exact two_positions. Qed.
Print Assumptions C104_positions_refuted.
Example C104_nonvacuous : let cperm i (s : Z) := map (fun k => (hd 0 i + Z.of_nat k) mod bls_q)%Z (seq 5 17) in
  (0 <= nth 0 (cperm (2 :: repeat 0 15) 0) 0 < 2 ^ 255 - bls_q)%Z /\ prime bls_q /\ (2 ^ 192 <= bls_q)%Z /\
  (forall i s, List.length (cperm i s) = 17) /\
  Forall2 (fedq bls_q bls_rinv (pos_val cperm 2 7)) pos_ops [QPut [[fof 2]]; QPerm 1 8] /\
  exists g, gq_run pos_ops gq_new = Ok g /\ Forall (stm_q bls_q cperm false (pos_val cperm 2 7)) (gq_code g).
Proof.
  intros cperm. split; [split; [discriminate|reflexivity]|]. split; [exact bls_q_prime|]. split; [discriminate|].
  split; [intros; reflexivity|]. split.
  - apply Forall2_cons; [|apply Forall2_cons; [|apply Forall2_nil]].
    + apply Forall2_cons; [|apply Forall2_nil]. exists (2 * R256 mod bls_q)%Z. split; vm_compute; reflexivity.
    + split; [reflexivity|]. split; [reflexivity|]. apply Nat.leb_le. reflexivity.
  - apply pos_holds; [reflexivity|split; [discriminate|reflexivity]|split; [discriminate|reflexivity]|reflexivity].
Qed.
