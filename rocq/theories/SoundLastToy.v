(* Examples for SoundLast. *)
From Verif Require Import Base GlModel FrField F3gModel Cubic HashModel ProverModel FriModel StarkStep4 StarkToy.
From Verif Require TranscriptProof.
Open Scope nat_scope.
Open Scope list_scope.
Open Scope res_scope.

Definition flat_answer (o : list opening) (y : nat) : res (list F3G) := Ok [of_k kone].
Definition flat_proof : friproof := mkFP [mkQ [[]] zero4] [of_k kone; of_k kone].
Lemma flat_accepted : fri_verify ones flat_answer 1 0 1 [1] tr_new flat_proof = Ok true.
Proof. vm_compute. reflexivity. Qed.
Lemma flat_ok : (forall o y l, flat_answer o y = Ok l -> l = [] \/ l = [of_k kone]) /\
  fri_verify ones flat_answer 1 0 1 [1] tr_new flat_proof = Ok true /\ length (fp_last flat_proof) = 2 ^ 1.
Proof.
  split; [|split; [exact flat_accepted | reflexivity]]. intros o y l E. right. unfold flat_answer in E.
  change (Ok (A := list F3G) [of_k kone] = Ok l) in E. injection E. auto.
Qed.
Lemma flat_start : (forall i s, length (ones i s) = 12) /\ 1 <= 3 <= 30 /\ 1 <= 3 /\ 0 < 5 /\ TranscriptProof.wf tr_new.
Proof. split; [exact ones_len|]. split; [lia|]. split; [lia|]. split; [lia | exact TranscriptProof.new_wf]. Qed.
