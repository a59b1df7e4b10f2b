(* Properties of the hash of the public inputs in the on-chain circuit. *)
From Verif Require Import Base BnModel CircModel CircProof CircToy PhashModel PhashProof.
Open Scope Z_scope.

(* C112: in every satisfying assignment the address has 160 bits, the public inputs are canonical, and the output is the digest, as a
   number modulo r, of the address followed by the public inputs as words, all with the most significant bit first *)
Theorem C112_sound : forall r sha addr publics hash, big r -> ph_holds r sha addr publics hash ->
  0 <= addr < 2 ^ 160 /\ Forall (fun x => 0 <= x < gl_p) publics /\
  exists msg, length msg = (160 + 64 * length publics)%nat /\ Forall bit01 msg /\
    fold_left (fun a b => 2 * a + b) msg 0 = fold_left (fun a x => a * 2 ^ 64 + x) publics addr /\
    hash = fold_left (fun a b => 2 * a + b) (sha msg) 0 mod r.
Proof. exact ph_sound. Qed.
Print Assumptions C112_sound.
(* the prover has no choice *)
Theorem C112_unique : forall r sha addr publics h h', big r -> ph_holds r sha addr publics h -> ph_holds r sha addr publics h' -> h = h'.
Proof. exact ph_unique. Qed.
Print Assumptions C112_unique.
(* two claims with one hash are the same, or give two messages of one length whose digests agree modulo r *)
Theorem C112_binding : forall r sha addr publics addr' publics' h, big r -> length publics = length publics' ->
  ph_holds r sha addr publics h -> ph_holds r sha addr' publics' h ->
  (addr = addr' /\ publics = publics') \/
  exists m m', m <> m' /\ Forall bit01 m /\ Forall bit01 m' /\ length m = length m' /\
    fold_left (fun a b => 2 * a + b) (sha m) 0 mod r = fold_left (fun a b => 2 * a + b) (sha m') 0 mod r.
Proof. exact ph_binds. Qed.
Print Assumptions C112_binding.
(* and every claim has a hash *)
Theorem C112_complete : forall r sha addr publics, big r -> 0 <= addr < 2 ^ 160 -> Forall (fun x => 0 <= x < gl_p) publics ->
  exists h, ph_holds r sha addr publics h.
Proof. exact ph_complete. Qed.
Print Assumptions C112_complete.
Example C112_nonvacuous : big bls_q /\ 0 <= 7 < 2 ^ 160 /\ Forall (fun x => 0 <= x < gl_p) [5; 6] /\
  exists h, ph_holds bls_q (fun m => m) 7 [5; 6] h.
Proof.
  assert (A : 0 <= 7 < 2 ^ 160) by (split; [discriminate|reflexivity]).
  assert (P : Forall (fun x => 0 <= x < gl_p) [5; 6]) by (constructor; [split; [discriminate|reflexivity]|constructor; [split; [discriminate|reflexivity]|constructor]]).
  exact (conj bls_big (conj A (conj P (ph_complete bls_q (fun m => m) 7 [5; 6] bls_big A P)))).
Qed.
