(* C19-C25, C59, C60: row hashes, Merkle trees and transcripts.
   [perm inp cap] is the Poseidon permutation on eight inputs and four capacity words; all that is
   assumed of it is that it returns twelve words. [collision_in perm cs ds] says that some call in cs
   and some different call in ds give the same four words; the lists are the calls made by the
   verifications or histories in question.
   For the large field, [hash_ex] is Poseidon::hash_ex and [permq] its full output of seventeen
   elements; [qcollision] is the same notion for the first element. The examples use the small
   functions of ToyHash.v. *)
From Verif Require Import Base GlModel FrField ListAux HashModel HashProof MerkleProof TranscriptProof BnModel BnProof TranscriptBn ToyHash.
Open Scope nat_scope.
Open Scope res_scope.

(* C19 *)
Theorem C19_openings_complete : forall perm, (forall i s, length (perm i s) = 12) -> forall workers buff w h t idx,
  2 <= h -> length buff = h * w -> merkelize perm workers buff w h = Ok t -> idx < h ->
  exists mp r, get_group_proof t idx = Ok (firstn w (skipn (idx * w) buff), mp) /\ tree_root t = Ok r /\
    verify_group_proof perm r mp idx (firstn w (skipn (idx * w) buff)) = Ok true.
Proof. exact complete. Qed.
Print Assumptions C19_openings_complete.

Theorem C19_tree_exists : forall perm, (forall i s, length (perm i s) = 12) -> forall workers buff w h,
  workers <> 0 -> 2 <= h -> length buff = h * w -> w / 8 <= MAX_OPS -> exists t, merkelize perm workers buff w h = Ok t.
Proof. exact merkelize_total. Qed.
Print Assumptions C19_tree_exists.

Theorem C19_outside_refused : forall t idx, t_height t <= idx -> get_group_proof t idx = Err.
Proof. exact refuses. Qed.
Print Assumptions C19_outside_refused.

(* the number of threads does not change the tree *)
Theorem C19_threads_irrelevant : forall perm, (forall i s, length (perm i s) = 12) -> forall w1 w2 buff w h t1 t2,
  2 <= h -> length buff = h * w -> rows_per_thread w1 w h <> 0 -> rows_per_thread w2 w h <> 0 ->
  merkelize perm w1 buff w h = Ok t1 -> merkelize perm w2 buff w h = Ok t2 -> t1 = t2.
Proof. exact workers_irrelevant. Qed.
Print Assumptions C19_threads_irrelevant.

(* a tree of one row has the zero root, so its own opening is rejected *)
Theorem C19_single_row_refuted : forall perm, (forall i s, length (perm i s) = 12) -> forall workers buff w t d,
  length buff = w -> merkelize perm workers buff w 1 = Ok t -> lin_hash perm buff 0 = Ok d -> d <> zero4 ->
  exists r mp, tree_root t = Ok r /\ get_group_proof t 0 = Ok (buff, mp) /\ verify_group_proof perm r mp 0 buff = Ok false.
Proof. exact single_row_fails. Qed.
Print Assumptions C19_single_row_refuted.

(* three rows of two words *)
Example C19_nonvacuous :
  (do t <- merkelize toy 3 (map fof [1; 2; 3; 4; 5; 6]%Z) 2 3;
   do r <- tree_root t;
   do p <- get_group_proof t 2;
   do ok <- verify_group_proof toy r (snd p) 2 (fst p);
   do bad <- verify_group_proof toy r (snd p) 1 (fst p);
   Ok (map fint (fst p), length (snd p), ok, bad)) = Ok ([5; 6]%Z, 2, true, false).
Proof. vm_compute. reflexivity. Qed.

(* C20 *)
Theorem C20_openings_bind : forall perm, (forall i s, length (perm i s) = 12) -> forall root mp mp' idx vals vals',
  length vals = length vals' -> length mp = length mp' ->
  verify_group_proof perm root mp idx vals = Ok true -> verify_group_proof perm root mp' idx vals' = Ok true ->
  (vals = vals' /\ map (firstn 4) mp = map (firstn 4) mp') \/
  collision_in perm (opening_calls perm mp idx vals) (opening_calls perm mp' idx vals').
Proof. exact binding. Qed.
Print Assumptions C20_openings_bind.

(* the path length is not checked: every accepted opening gives an accepted one of other content *)
Theorem C20_inner_node_refuted : forall perm, (forall i s, length (perm i s) = 12) -> forall root s mp idx vals d,
  length s = 4 -> lin_hash perm vals 0 = Ok d ->
  verify_group_proof perm root (s :: mp) (2 * idx) vals = Ok true ->
  verify_group_proof perm root mp idx (d ++ s) = Ok true.
Proof. exact inner_node_opens. Qed.
Print Assumptions C20_inner_node_refuted.

Example C20_nonvacuous :
  (do t <- merkelize toy 3 (map fof [1; 2; 3; 4]%Z) 1 4;
   do r <- tree_root t;
   do p <- get_group_proof t 0;
   do ok <- verify_group_proof toy r (snd p) 0 [fof 1];
   do bad <- verify_group_proof toy r (snd p) 0 [fof 9];
   do forged <- verify_group_proof toy r (tl (snd p)) 0 ([fof 1; f0; f0; f0] ++ hd [] (snd p));
   Ok (ok, bad, forged)) = Ok (true, false, true).
Proof. vm_compute. reflexivity. Qed.

(* C21: an accepted opening stays accepted with any other row and index *)
Theorem C21_row_ignored_refuted : forall q rinv hash_ex root s mp idx idx' vals vals' h' d',
  hash_matrix1 q rinv hash_ex vals' = Ok h' -> from_scalar h' = Ok d' ->
  verify_group_proof16 q rinv hash_ex root (s :: mp) idx vals = Ok true ->
  verify_group_proof16 q rinv hash_ex root (s :: mp) idx' vals' = Ok true.
Proof. exact row_ignored. Qed.
Print Assumptions C21_row_ignored_refuted.

(* only the last group of the path is hashed and compared *)
Theorem C21_only_last_group : forall q rinv hash_ex root mp s idx vals r,
  root_from_group_proof16 q rinv hash_ex (mp ++ [s]) idx vals = Ok r ->
  exists g h, slice s 0 16 = Ok g /\ hash_q hash_ex g 0%Z = Ok h /\ from_scalar h = Ok r /\
    verify_group_proof16 q rinv hash_ex root (mp ++ [s]) idx vals = Ok (list_eqb root r).
Proof. exact only_last. Qed.
Print Assumptions C21_only_last_group.

(* a tree of twenty rows: row 17 verifies, and so does a row that is not in the tree at index 3 *)
Example C21_nonvacuous :
  (do t <- merkelize16 bn_q bn_rinv toyq 3 (map (fun i => fof (Z.of_nat i)) (seq 1 100)) 5 20;
   do r <- tree_root t;
   do p <- get_group_proof16 t 17;
   do ok <- verify_group_proof16 bn_q bn_rinv toyq r (snd p) 17 (fst p);
   do forged <- verify_group_proof16 bn_q bn_rinv toyq r (snd p) 3 (map fof [7; 7; 7; 7; 7]%Z);
   Ok (map fint (fst p), length (snd p), ok, forged)) = Ok ([86; 87; 88; 89; 90]%Z, 2, true, true).
Proof. vm_compute. reflexivity. Qed.

(* C22 *)
Theorem C22_rows_separated : forall perm, (forall i s, length (perm i s) = 12) -> forall b l l' d,
  length l = length l' -> lin_hash perm l b = Ok d -> lin_hash perm l' b = Ok d ->
  l = l' \/ collision_in perm (lin_calls perm b l) (lin_calls perm b l').
Proof. exact lin_hash_bind. Qed.
Print Assumptions C22_rows_separated.

Theorem C22_total : forall perm, (forall i s, length (perm i s) = 12) -> forall l b,
  exists d, lin_hash perm l b = Ok d /\ length d = 4.
Proof. exact lin_hash_ok. Qed.
Print Assumptions C22_total.

(* rows of different lengths collide without a collision of the permutation *)
Theorem C22_padding_refuted : forall perm, (forall i s, length (perm i s) = 12) -> forall l b,
  length l <= 3 -> lin_hash perm l b = lin_hash perm (l ++ [f0]) b.
Proof. exact row_padding. Qed.
Print Assumptions C22_padding_refuted.

Example C22_nonvacuous :
  (do a <- lin_hash toy (map fof [1; 2; 3; 4; 5; 6; 7; 8; 9; 10]%Z) 0;
   do b <- lin_hash toy (map fof [1; 2; 3; 4; 5; 6; 7; 8; 9; 11]%Z) 0;
   Ok (length a, list_eqb a b, length (lin_calls toy 0 (map fof [1; 2; 3; 4; 5; 6; 7; 8; 9; 10]%Z)))) = Ok (4, false, 2).
Proof. vm_compute. reflexivity. Qed.

(* C23 *)
Theorem C23_total : forall perm, (forall i s, length (perm i s) = 12) -> forall h,
  exists cs t, run perm h tr_new = Ok (cs, t) /\ length (tr_state t) = 4.
Proof. exact total. Qed.
Print Assumptions C23_total.

Theorem C23_state_binds : forall perm, (forall i s, length (perm i s) = 12) -> forall h h' cs cs' t t',
  same_shape h h' -> run perm h tr_new = Ok (cs, t) -> run perm h' tr_new = Ok (cs', t') ->
  tr_state t = tr_state t' -> tr_pending t = tr_pending t' ->
  absorbed h = absorbed h' \/ collision_in perm (calls perm h) (calls perm h').
Proof. exact state_binds. Qed.
Print Assumptions C23_state_binds.

(* the four challenges after absorbing something determine everything absorbed *)
Theorem C23_challenges_bind : forall perm, (forall i s, length (perm i s) = 12) -> forall h h' es es' cs cs' ds t t',
  same_shape (h ++ [EPut es]) (h' ++ [EPut es']) -> length h = length h' -> concat es <> [] -> length ds = 4 ->
  run perm (h ++ [EPut es; EGet; EGet; EGet; EGet]) tr_new = Ok (cs ++ ds, t) ->
  run perm (h' ++ [EPut es'; EGet; EGet; EGet; EGet]) tr_new = Ok (cs' ++ ds, t') ->
  absorbed (h ++ [EPut es]) = absorbed (h' ++ [EPut es']) \/
  collision_in perm (calls perm (h ++ [EPut es; EGet; EGet; EGet; EGet]))
                    (calls perm (h' ++ [EPut es'; EGet; EGet; EGet; EGet])).
Proof. exact challenges_bind. Qed.
Print Assumptions C23_challenges_bind.

(* sequences of different lengths: a trailing zero is not noticed *)
Theorem C23_padding_refuted : forall perm, (forall i s, length (perm i s) = 12) -> forall l,
  length l <= 6 -> run perm [EPut [l]; EGet] tr_new = run perm [EPut [l ++ [f0]]; EGet] tr_new.
Proof. exact padding_ambiguous. Qed.
Print Assumptions C23_padding_refuted.

Example C23_nonvacuous :
  (do a <- run toy [EPut [map fof [1; 2; 3]%Z]; EGet; EPut [map fof [4; 5]%Z; [fof 6]]; EGet] tr_new;
   do b <- run toy [EPut [map fof [1; 2; 3]%Z]; EGet; EPut [map fof [4; 5]%Z; [fof 7]]; EGet] tr_new;
   Ok (length (fst a), list_eqb (firstn 1 (fst a)) (firstn 1 (fst b)), list_eqb (fst a) (fst b),
       length (calls toy [EPut [map fof [1; 2; 3]%Z]; EGet; EPut [map fof [4; 5]%Z; [fof 6]]; EGet])))
  = Ok (2, true, false, 2).
Proof. vm_compute. reflexivity. Qed.

(* C24: [wf] holds of every state reached from a new transcript (four state words, fewer than eight
   pending values) *)
Theorem C24_positions : forall perm, (forall i s, length (perm i s) = 12) -> forall t n b,
  wf t -> 0 < n * b -> b <= 64 ->
  exists fields t' r,
    get_many perm ((n * b - 1) / 63 + 1) t = Ok (fields, t') /\
    get_permutations perm t n b = Ok (r, t') /\ length r = n /\
    forall i, i < n ->
      (0 <= nth i r 0 < 2 ^ Z.of_nat b)%Z /\
      forall j, j < b -> Z.testbit (nth i r 0%Z) (Z.of_nat j) =
        Z.testbit (fint (nth ((i * b + j) / 63) fields f0)) (Z.of_nat ((i * b + j) mod 63)).
Proof. exact permutations. Qed.
Print Assumptions C24_positions.

Example C24_nonvacuous : (forall i s, length (toy i s) = 12) /\ wf tr_new /\
  (do r <- get_permutations toy tr_new 20 7; Ok (fst r)) =
  Ok [0; 32; 0; 0; 0; 0; 0; 0; 0; 0; 16; 0; 0; 0; 0; 0; 0; 0; 0; 8]%Z.
Proof. split; [exact toy_len|]. split; [exact new_wf|]. vm_compute. reflexivity. Qed.

(* C25 *)
(* both words come from the hash made before y was absorbed *)
Theorem C25_stale_word_refuted : forall q rinv hash_ex permq, (forall i s, length (permq i s) = 17) ->
  (forall i s n, length i = 16 -> n <= 17 -> hash_ex i s n = Ok (firstn n (permq i s))) ->
  forall a y v, put_value q y = Ok v -> (fint a < q)%Z ->
  let o := hd 0%Z (permq ((fint a * R256 mod q)%Z :: repeat 0%Z 15) 0%Z) in
  exists t', qrun q rinv hash_ex [QPut [[a]]; QWord; QPut [y]; QWord] tq_new =
    Ok ([[]; [fint (nth 0 (split3 q rinv o) f0)]; []; [fint (nth 1 (split3 q rinv o) f0)]], t').
Proof. exact stale_history. Qed.
Print Assumptions C25_stale_word_refuted.

(* histories without get_fields1: nothing is left over, the next field element after absorbing is the
   new state, and the state binds everything absorbed *)
Theorem C25_nothing_left : forall q rinv hash_ex permq, (forall i s, length (permq i s) = 17) ->
  (forall i s n, length i = 16 -> n <= 17 -> hash_ex i s n = Ok (firstn n (permq i s))) ->
  forall h os t, no_word h -> qrun q rinv hash_ex h tq_new = Ok (os, t) -> q_out3 t = [].
Proof. exact no_leftover. Qed.
Print Assumptions C25_nothing_left.

Theorem C25_field_is_new_state : forall q rinv hash_ex permq, (forall i s, length (permq i s) = 17) ->
  (forall i s n, length i = 16 -> n <= 17 -> hash_ex i s n = Ok (firstn n (permq i s))) ->
  forall h es os t, no_word h -> es <> [] -> qrun q rinv hash_ex (h ++ [QPut es; QField]) tq_new = Ok (os, t) ->
  q_pending t = [] /\ last os [] = map fint (split3 q rinv (q_state t)).
Proof. exact field_is_state. Qed.
Print Assumptions C25_field_is_new_state.

Theorem C25_state_binds : forall q rinv hash_ex permq, (forall i s, length (permq i s) = 17) ->
  (forall i s n, length i = 16 -> n <= 17 -> hash_ex i s n = Ok (firstn n (permq i s))) ->
  forall h h' os os' t t', no_word h -> no_word h' -> same_shapeq h h' ->
  qrun q rinv hash_ex h tq_new = Ok (os, t) -> qrun q rinv hash_ex h' tq_new = Ok (os', t') ->
  q_state t = q_state t' -> q_pending t = q_pending t' ->
  absorbedq q h = absorbedq q h' \/ qcollision permq (qcalls q permq h) (qcalls q permq h').
Proof. exact state_binds_q. Qed.
Print Assumptions C25_state_binds.

Example C25_nonvacuous :
  ((forall i s, length (toyp i s) = 17) /\
   (forall i s n, length i = 16 -> n <= 17 -> toyq i s n = Ok (firstn n (toyp i s)))) /\
  (do a <- qrun bn_q bn_rinv toyq [QPut [[fof 1]]; QWord; QPut [[fof 2]]; QWord] tq_new; Ok (fst a)) =
  Ok [[]; [13338851373410970759%Z]; []; [18105466276565706705%Z]] /\
  (do a <- qrun bn_q bn_rinv toyq [QPut [[fof 1]]; QWord; QPut [[fof 3]]; QWord] tq_new; Ok (fst a)) =
  Ok [[]; [13338851373410970759%Z]; []; [18105466276565706705%Z]] /\
  (do a <- qrun bn_q bn_rinv toyq [QPut [[fof 1]]; QField; QPut [[fof 2]]; QField; QPerm 3 5] tq_new; Ok (skipn 3 (fst a))) =
  Ok [[13299588533243692506; 15770894335220468673; 13569596883858394822]%Z; [25; 21; 18]%Z] /\
  (do a <- qrun bn_q bn_rinv toyq [QPut [[fof 1]]; QField; QPut [[fof 3]]; QField; QPerm 3 5] tq_new; Ok (skipn 3 (fst a))) =
  Ok [[2026441540687515064; 12461053937836120437; 16174367599550497949]%Z; [7; 24; 18]%Z].
Proof. split; [exact toyq_ok|]. do 3 (split; [vm_compute; reflexivity|]). vm_compute. reflexivity. Qed.

(* C59 *)
Theorem C59_openings_complete_partial : forall q rinv hash_ex workers buff w h t idx,
  2 <= h -> (Z.of_nat h <= 2 ^ 32)%Z -> length buff = h * w ->
  merkelize16 q rinv hash_ex workers buff w h = Ok t -> idx < h ->
  exists mp r, get_group_proof16 t idx = Ok (firstn w (skipn (idx * w) buff), mp) /\ tree_root t = Ok r /\
    forall vals hv d, hash_matrix1 q rinv hash_ex vals = Ok hv -> from_scalar hv = Ok d ->
      verify_group_proof16 q rinv hash_ex r mp idx vals = Ok true.
Proof. exact complete16. Qed.
Print Assumptions C59_openings_complete_partial.

(* a matrix whose tree cannot be built, whatever the hash *)
Theorem C59_tree_exists_refuted : forall hash_ex, hash_array bn_q bn_rinv hash_ex bad_row = Panic.
Proof. exact bad_row_panics. Qed.
Print Assumptions C59_tree_exists_refuted.

Example C59_nonvacuous :
  match merkelize16 bn_q bn_rinv toyq 3 (bad_row ++ bad_row) 4 2 with Panic => true | _ => false end = true /\
  match merkelize16 bn_q bn_rinv toyq 3 (map (fun i => fof (Z.of_nat i)) (seq 1 34)) 2 17 with Ok t => length (t_nodes t) | _ => 0 end = 49.
Proof. vm_compute. split; reflexivity. Qed.

(* C60 *)
Theorem C60_row_hashes_agree : forall q rinv hash_ex, (2 ^ 192 < q)%Z -> (R256 * rinv mod q = 1)%Z -> forall vals,
  length vals <> 4 -> hash_array q rinv hash_ex vals = (do h <- hash_matrix1 q rinv hash_ex vals; from_scalar h).
Proof. exact row_hashes_agree. Qed.
Print Assumptions C60_row_hashes_agree.

(* four words: the number itself when committed, a hash of two numbers when opened *)
Theorem C60_row_of_four_refuted : forall q rinv hash_ex, (2 ^ 192 < q)%Z -> (R256 * rinv mod q = 1)%Z -> forall a b c d,
  hash_array q rinv hash_ex [a; b; c; d] = to_mont q rinv [a; b; c; d] /\
  hash_matrix1 q rinv hash_ex [a; b; c; d] = hash_q hash_ex [group3 q [a; b; c]; group3 q [d]] 0%Z.
Proof. exact row_of_four. Qed.
Print Assumptions C60_row_of_four_refuted.

Example C60_nonvacuous :
  (2 ^ 192 < bn_q)%Z /\ (R256 * bn_rinv mod bn_q = 1)%Z /\ (2 ^ 192 < bls_q)%Z /\ (R256 * bls_rinv mod bls_q = 1)%Z /\
  (do a <- hash_array bn_q bn_rinv toyq (map fof [1; 2; 3; 5]%Z);
   do h <- hash_matrix1 bn_q bn_rinv toyq (map fof [1; 2; 3; 5]%Z); do b <- from_scalar h; Ok (list_eqb a b)) = Ok false.
Proof. do 4 (split; [vm_compute; reflexivity|]). vm_compute. reflexivity. Qed.
