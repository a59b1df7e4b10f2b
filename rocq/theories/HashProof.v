(* Row hashing: the code computes a chain of Poseidon blocks, and different rows of one length with
   the same digest exhibit two Poseidon calls that collide. *)
From Verif Require Import Base GlModel FrField ListAux HashModel.
Open Scope nat_scope.

(** ** chunks *)

Lemma chunks_f_more {A} k (l : list A) : k <> 0 -> forall a b, length l <= a -> length l <= b ->
  chunks_f a k l = chunks_f b k l.
Proof.
  intros Hk. induction l as [l IH] using (well_founded_induction (Wf_nat.well_founded_ltof _ (@length A))).
  intros a b Ha Hb. destruct l as [|x l]; [destruct a, b; reflexivity|].
  destruct a as [|a]; [cbn in Ha; lia|]. destruct b as [|b]; [cbn in Hb; lia|].
  cbn [chunks_f]. f_equal. pose proof (skipn_length k (x :: l)) as E. cbn [length] in *.
  apply IH; unfold Wf_nat.ltof; cbn [length]; lia.
Qed.

Lemma chunks_nil {A} k : chunks k (@nil A) = [].
Proof. reflexivity. Qed.

Lemma chunks_step {A} k (l : list A) : k <> 0 -> l <> [] ->
  chunks k l = firstn k l :: chunks k (skipn k l).
Proof.
  intros Hk Hl. unfold chunks at 1. destruct l as [|x l]; [congruence|].
  cbn [length chunks_f]. f_equal. apply chunks_f_more; auto.
  pose proof (skipn_length k (x :: l)) as E. cbn [length] in *. lia.
Qed.

Lemma list_len_ind {A} (P : list A -> Prop) :
  (forall l, (forall r, length r < length l -> P r) -> P l) -> forall l, P l.
Proof.
  intros H l. induction l as [l IH] using (well_founded_induction (Wf_nat.well_founded_ltof _ (@length A))).
  apply H. intros r Hr. apply IH. exact Hr.
Qed.

(* induction along the chunks *)
Lemma chunks_ind {A} k (P : list A -> Prop) : k <> 0 -> P [] ->
  (forall l, l <> [] -> P (skipn k l) -> P l) -> forall l, P l.
Proof.
  intros Hk H0 HS. apply list_len_ind. intros l IH. destruct l as [|x l]; [exact H0|].
  apply HS; [discriminate|]. apply IH. pose proof (skipn_length k (x :: l)). cbn [length] in *. lia.
Qed.

Ltac chind k l := pattern l; apply (chunks_ind k); [first [assumption|discriminate]| |clear l; intros l Hl IH].

Lemma concat_chunks {A} k (l : list A) : k <> 0 -> concat (chunks k l) = l.
Proof.
  intros Hk. chind k l; [reflexivity|].
  rewrite chunks_step by auto. cbn [concat]. rewrite IH. apply firstn_skipn.
Qed.

Lemma chunks_short {A} k (l : list A) : k <> 0 -> l <> [] -> length l <= k -> chunks k l = [l].
Proof.
  intros Hk Hl H. rewrite chunks_step by auto. rewrite firstn_all2, skipn_all2 by lia. reflexivity.
Qed.

Lemma chunks_exact {A} k (a b : list A) : k <> 0 -> length a = k -> chunks k (a ++ b) = a :: chunks k b.
Proof.
  intros Hk H. rewrite chunks_step; auto.
  - rewrite firstn_app, skipn_app, H, Nat.sub_diag. cbn [firstn skipn].
    rewrite (firstn_all2 a), (skipn_all2 a) by lia. rewrite app_nil_r. reflexivity.
  - destruct a; cbn in *; [lia|discriminate].
Qed.

Lemma chunks_in {A} k (l : list A) c : k <> 0 -> In c (chunks k l) -> c <> [] /\ length c <= k.
Proof.
  intros Hk. chind k l; [intros []|].
  rewrite chunks_step by auto. intros [E|Hc]; [|auto].
  subst c. rewrite firstn_length. split; [|lia].
  destruct l as [|x l]; [congruence|]. destruct k; [lia|discriminate].
Qed.

Lemma chunks_len {A} k (l : list A) : k <> 0 -> length (chunks k l) = div_ceil (length l) k.
Proof.
  intros Hk. chind k l.
  - cbn [length chunks chunks_f]. unfold div_ceil. rewrite Nat.mod_0_l, Nat.div_0_l by lia. reflexivity.
  - rewrite chunks_step by auto. cbn [length]. rewrite IH, skipn_length.
    destruct (Nat.le_gt_cases k (length l)) as [H|H].
    + assert (E : exists d, length l = d + 1 * k) by (exists (length l - k); lia). destruct E as [d E].
      rewrite E. replace (d + 1 * k - k) with d by lia. unfold div_ceil.
      rewrite Nat.mod_add, Nat.div_add by lia. destruct (d mod k =? 0); lia.
    + replace (length l - k) with 0 by lia. unfold div_ceil.
      rewrite Nat.mod_0_l, Nat.div_0_l by lia. cbn [Nat.eqb].
      rewrite (Nat.mod_small (length l)), (Nat.div_small (length l)) by lia.
      destruct l as [|x l]; [congruence|]. reflexivity.
Qed.

Lemma app_eq_len {A} (a a' b b' : list A) : length a = length a' -> a ++ b = a' ++ b' -> a = a' /\ b = b'.
Proof.
  revert a'. induction a as [|x a IH]; intros [|y a'] H E; cbn in *; try lia; auto.
  injection E as -> E. injection H as H. destruct (IH a' H E) as [-> ->]. auto.
Qed.

Lemma pad_len n l : length l <= n -> length (pad_to n l) = n.
Proof. intros H. unfold pad_to. rewrite app_length, repeat_length. lia. Qed.

Lemma pad_inj n l l' : length l = length l' -> pad_to n l = pad_to n l' -> l = l'.
Proof. unfold pad_to. intros H E. exact (proj1 (app_eq_len _ _ _ _ H E)). Qed.

Lemma pad_full n l : length l = n -> pad_to n l = l.
Proof. intros H. unfold pad_to. rewrite H, Nat.sub_diag. apply app_nil_r. Qed.

Lemma zero4_len : length zero4 = 4.
Proof. reflexivity. Qed.

Lemma fr_list_dec (a b : list Fr) : {a = b} + {a <> b}.
Proof.
  apply list_eq_dec. intros x y. destruct (feqb x y) eqn:E.
  - left. apply feqb_eq. exact E.
  - right. intros ->. rewrite (proj2 (feqb_eq y y) eq_refl) in E. discriminate E.
Qed.

Lemma list_eqb_eq a : forall b, list_eqb a b = true <-> a = b.
Proof.
  induction a as [|x a IH]; intros [|y b]; cbn [list_eqb]; split; intros H; try discriminate H; auto.
  - apply andb_prop in H. destruct H as [H1 H2]. f_equal; [apply feqb_eq; exact H1|apply IH; exact H2].
  - injection H as -> ->. rewrite (proj2 (feqb_eq y y) eq_refl). cbn. apply IH. reflexivity.
Qed.

Section Hash.
Variable perm : list Fr -> list Fr -> list Fr.
Hypothesis perm_len : forall i s, length (perm i s) = 12.

Notation "'do' x <- r ; f" := (bind r (fun x => f)) (at level 200, x pattern, r at level 100, f at level 200).

(* the four words kept of one Poseidon call *)
Definition P4 (b st : list Fr) : list Fr := firstn 4 (perm b st).

Lemma P4_len b st : length (P4 b st) = 4.
Proof. unfold P4. rewrite firstn_length, perm_len. reflexivity. Qed.

Lemma poseidon_ok b st out : length b = 8 -> length st = 4 ->
  poseidon_hash perm b st out = Ok (firstn out (perm b st)).
Proof. intros H1 H2. unfold poseidon_hash. rewrite H1, H2. reflexivity. Qed.

(** ** the row hash in closed form *)

Fixpoint chain (blocks : list (list Fr)) (st : list Fr) : list Fr :=
  match blocks with [] => st | b :: r => chain r (P4 b st) end.

Definition blocks8 (l : list Fr) : list (list Fr) := map (pad_to 8) (chunks 8 l).

Definition H1 (l : list Fr) : list Fr :=
  if length l <=? 4 then pad_to 4 l else chain (blocks8 l) zero4.

Definition bsize (batch n : nat) : nat := if batch =? 0 then Nat.max 8 (div_ceil n 4) else batch.

Definition lin (batch : nat) (l : list Fr) : list Fr :=
  if length l <=? 4 then pad_to 4 l
  else let hs := concat (map H1 (chunks (bsize batch (length l)) l)) in
       if length hs <=? 4 then pad_to 4 hs else H1 hs.

Lemma chain_len bs : forall st, length st = 4 -> length (chain bs st) = 4.
Proof. induction bs as [|b r IH]; intros st H; cbn [chain]; auto using P4_len. Qed.

Lemma H1_len l : length (H1 l) = 4.
Proof.
  unfold H1. destruct (Nat.leb_spec (length l) 4) as [H|H]; [apply pad_len; lia|].
  apply chain_len, zero4_len.
Qed.

Lemma lin_len b l : length (lin b l) = 4.
Proof.
  unfold lin. destruct (Nat.leb_spec (length l) 4) as [H|H]; [apply pad_len; lia|]. cbn zeta.
  match goal with |- context [length ?x <=? 4] => destruct (Nat.leb_spec (length x) 4) as [H'|H'] end;
    [apply pad_len; lia|apply H1_len].
Qed.

Lemma absorb_short l : forall st buf, length buf + length l < 8 ->
  foldM (absorb_step perm) l (st, buf) = Ok (st, buf ++ l).
Proof.
  induction l as [|x l IH]; intros st buf H; cbn [foldM]; [rewrite app_nil_r; reflexivity|].
  cbn [length] in H. unfold absorb_step at 1. rewrite app_length. cbn [length].
  destruct (Nat.eqb_spec (length buf + 1) 8); [lia|]. cbn [bind].
  rewrite IH by (rewrite app_length; cbn; lia). rewrite <- app_assoc. reflexivity.
Qed.

Lemma absorb_block l : forall st buf, length st = 4 -> length buf < 8 -> length buf + length l = 8 ->
  foldM (absorb_step perm) l (st, buf) = Ok (P4 (buf ++ l) st, []).
Proof.
  induction l as [|x l IH]; intros st buf Hst Hb H; cbn [length] in H; [lia|]. cbn [foldM].
  unfold absorb_step at 1. rewrite app_length. cbn [length].
  destruct (Nat.eqb_spec (length buf + 1) 8) as [E|E].
  - assert (l = []) as -> by (destruct l; cbn in H; [reflexivity|lia]).
    rewrite poseidon_ok; [|rewrite app_length; cbn; lia|exact Hst].
    cbn [unwrap bind foldM]. reflexivity.
  - cbn [bind]. rewrite IH; [|exact Hst|rewrite app_length; cbn; lia|rewrite app_length; cbn; lia].
    rewrite <- app_assoc. reflexivity.
Qed.

(* the absorbing loop followed by the padded last block *)
Lemma absorb_all l : forall st, length st = 4 ->
  (do sb <- foldM (absorb_step perm) l (st, []);
   let (st, buf) := sb in
   match buf with [] => Ok st | _ => unwrap (poseidon_hash perm (pad_to 8 buf) st 4) end)
  = Ok (chain (blocks8 l) st).
Proof.
  assert (K8 : 8 <> 0) by discriminate.
  chind 8 l; intros st Hst; [reflexivity|].
  unfold blocks8. rewrite chunks_step by auto. cbn [map chain].
  destruct (Nat.le_gt_cases 8 (length l)) as [H|H].
  - rewrite <- (firstn_skipn 8 l) at 1. rewrite foldM_app.
    rewrite absorb_block; [|exact Hst|cbn; lia|rewrite firstn_length; cbn [length]; lia].
    cbn [bind app]. rewrite pad_full by (rewrite firstn_length; lia).
    apply IH. apply P4_len.
  - rewrite absorb_short by (cbn; lia). cbn [bind app].
    rewrite firstn_all2, skipn_all2 by lia. cbn [chunks chunks_f map chain length].
    destruct l as [|x l]; [congruence|].
    rewrite poseidon_ok; [reflexivity|apply pad_len; lia|exact Hst].
Qed.

Lemma lin_hash1_eq l : lin_hash1 perm l = Ok (H1 l).
Proof.
  unfold lin_hash1, H1. destruct (length l <=? 4); [reflexivity|].
  apply (absorb_all l zero4 zero4_len).
Qed.

Lemma lin_hash_eq b l : lin_hash perm l b = Ok (lin b l).
Proof.
  unfold lin_hash, lin. fold (bsize b (length l)).
  destruct (length l <=? 4); [reflexivity|].
  rewrite (mapM_ok _ H1) by (intros x _; rewrite lin_hash1_eq; reflexivity).
  cbn [bind]. destruct (length _ <=? 4); [reflexivity|]. apply lin_hash1_eq.
Qed.

(** ** calls and collisions *)

(* a Poseidon call: its eight inputs and its four capacity words *)
Definition call := (list Fr * list Fr)%type.

(* two different calls with the same four words kept *)
Definition collide (c d : call) : Prop := c <> d /\ P4 (fst c) (snd c) = P4 (fst d) (snd d).

Fixpoint chain_calls (blocks : list (list Fr)) (st : list Fr) : list call :=
  match blocks with [] => [] | b :: r => (b, st) :: chain_calls r (P4 b st) end.

(* the calls lin_hash1 makes *)
Definition H1_calls (l : list Fr) : list call :=
  if length l <=? 4 then [] else chain_calls (blocks8 l) zero4.

(* the calls lin_hash makes *)
Definition lin_calls (batch : nat) (l : list Fr) : list call :=
  if length l <=? 4 then []
  else let cs := chunks (bsize batch (length l)) l in
       let hs := concat (map H1 cs) in
       concat (map H1_calls cs) ++ (if length hs <=? 4 then [] else H1_calls hs).

Definition collision_in (cs ds : list call) : Prop := exists c d, In c cs /\ In d ds /\ collide c d.

Lemma collision_mono cs ds cs' ds' : incl cs cs' -> incl ds ds' -> collision_in cs ds -> collision_in cs' ds'.
Proof. intros H1' H2 (c & d & Hc & Hd & H). exists c, d. auto. Qed.

Lemma call_dec (c d : call) : {c = d} + {c <> d}.
Proof. decide equality; apply fr_list_dec. Qed.

Lemma chain_bind bs : forall bs' st st', length bs = length bs' -> chain bs st = chain bs' st' ->
  (bs = bs' /\ st = st') \/ collision_in (chain_calls bs st) (chain_calls bs' st').
Proof.
  induction bs as [|b r IH]; intros [|b' r'] st st' HL E; cbn in HL; try lia; cbn [chain chain_calls] in *; [auto|].
  destruct (IH r' _ _ ltac:(lia) E) as [[-> E2]|C].
  - destruct (call_dec (b, st) (b', st')) as [Q|Q].
    + injection Q as -> ->. auto.
    + right. exists (b, st), (b', st'). cbn [In]. repeat split; auto.
  - right. eapply collision_mono; [| |exact C]; intros c Hc; right; exact Hc.
Qed.

Lemma blocks8_inj l : forall l', length l = length l' -> blocks8 l = blocks8 l' -> l = l'.
Proof.
  assert (K8 : 8 <> 0) by discriminate.
  chind 8 l; intros l' HL E.
  - destruct l'; [reflexivity|discriminate HL].
  - destruct l' as [|y l']; [destruct l; [congruence|discriminate HL]|].
    unfold blocks8 in E. rewrite (chunks_step 8 l), (chunks_step 8 (y :: l')) in E by (auto; discriminate).
    cbn [map] in E. assert (E1 : pad_to 8 (firstn 8 l) = pad_to 8 (firstn 8 (y :: l'))) by congruence.
    assert (E2 : map (pad_to 8) (chunks 8 (skipn 8 l)) = map (pad_to 8) (chunks 8 (skipn 8 (y :: l')))) by congruence.
    apply pad_inj in E1; [|rewrite !firstn_length, HL; reflexivity].
    apply IH in E2; [|rewrite !skipn_length, HL; reflexivity].
    rewrite <- (firstn_skipn 8 l), <- (firstn_skipn 8 (y :: l')), E1, E2. reflexivity.
Qed.

Lemma H1_bind l l' : length l = length l' -> H1 l = H1 l' -> l = l' \/ collision_in (H1_calls l) (H1_calls l').
Proof.
  intros HL E. unfold H1, H1_calls in *. rewrite <- HL in *.
  destruct (length l <=? 4) eqn:Q; [left; exact (pad_inj 4 _ _ HL E)|].
  assert (HB : length (blocks8 l) = length (blocks8 l')).
  { unfold blocks8. rewrite !map_length, !chunks_len by discriminate. rewrite HL. reflexivity. }
  destruct (chain_bind _ _ _ _ HB E) as [[E' _]|C]; [left; apply blocks8_inj; auto|right; exact C].
Qed.

Lemma concat_H1_inj cs : forall cs', length cs = length cs' ->
  concat (map H1 cs) = concat (map H1 cs') -> map H1 cs = map H1 cs'.
Proof.
  induction cs as [|c r IH]; intros [|c' r'] HL E; cbn in HL; try lia; [reflexivity|].
  cbn [map concat] in *. apply app_eq_len in E; [|rewrite !H1_len; reflexivity].
  destruct E as [-> E]. f_equal. apply IH; [lia|exact E].
Qed.

Lemma chunks_bind k l : k <> 0 -> forall l', length l = length l' ->
  map H1 (chunks k l) = map H1 (chunks k l') ->
  l = l' \/ collision_in (concat (map H1_calls (chunks k l))) (concat (map H1_calls (chunks k l'))).
Proof.
  intros Hk. chind k l; intros l' HL E.
  - left. destruct l'; [reflexivity|discriminate HL].
  - destruct l' as [|y l']; [destruct l; [congruence|discriminate HL]|]. set (m := y :: l') in *.
    assert (Hm : m <> []) by discriminate.
    rewrite (chunks_step k l), (chunks_step k m) in * by auto. cbn [map concat] in *.
    assert (E1 : H1 (firstn k l) = H1 (firstn k m)) by congruence.
    assert (E2 : map H1 (chunks k (skipn k l)) = map H1 (chunks k (skipn k m))) by congruence.
    assert (L1 : length (firstn k l) = length (firstn k m)) by (rewrite !firstn_length, HL; reflexivity).
    assert (L2 : length (skipn k l) = length (skipn k m)) by (rewrite !skipn_length, HL; reflexivity).
    destruct (H1_bind _ _ L1 E1) as [Q|C].
    + destruct (IH (skipn k m) L2 E2) as [Q2|C].
      * left. rewrite <- (firstn_skipn k l), <- (firstn_skipn k m), Q, Q2. reflexivity.
      * right. eapply collision_mono; [| |exact C]; intros c Hc; apply in_or_app; auto.
    + right. eapply collision_mono; [| |exact C]; intros c Hc; apply in_or_app; auto.
Qed.

Lemma bsize_pos b n : bsize b n <> 0.
Proof. unfold bsize. destruct (Nat.eqb_spec b 0); lia. Qed.

Theorem lin_bind b l l' : length l = length l' -> lin b l = lin b l' ->
  l = l' \/ collision_in (lin_calls b l) (lin_calls b l').
Proof.
  intros HL E. unfold lin, lin_calls in *. rewrite <- HL in *.
  destruct (length l <=? 4) eqn:Q; [left; exact (pad_inj 4 _ _ HL E)|]. cbn zeta in *.
  pose proof (bsize_pos b (length l)) as Hk. set (k := bsize b (length l)) in *.
  assert (HC : length (chunks k l) = length (chunks k l')) by (rewrite !chunks_len, HL by auto; reflexivity).
  assert (HH : length (concat (map H1 (chunks k l))) = length (concat (map H1 (chunks k l')))).
  { rewrite !(length_concat 4), !map_length, HC; auto; apply Forall_map, Forall_forall; intros; apply H1_len. }
  rewrite <- HH in *.
  assert (D : concat (map H1 (chunks k l)) = concat (map H1 (chunks k l')) \/
    collision_in (if length (concat (map H1 (chunks k l))) <=? 4 then [] else H1_calls (concat (map H1 (chunks k l))))
      (if length (concat (map H1 (chunks k l))) <=? 4 then [] else H1_calls (concat (map H1 (chunks k l'))))).
  { destruct (length (concat (map H1 (chunks k l))) <=? 4); [left; exact (pad_inj 4 _ _ HH E)|]. apply H1_bind; auto. }
  destruct D as [D|C].
  - destruct (chunks_bind k l Hk l' HL (concat_H1_inj _ _ HC D)) as [Q2|C]; [auto|].
    right. eapply collision_mono; [| |exact C]; intros c Hc; apply in_or_app; auto.
  - right. eapply collision_mono; [| |exact C]; intros c Hc; apply in_or_app; auto.
Qed.

(* a row of eight words, the shape of an inner node *)
Lemma lin8 l : length l = 8 -> lin 0 l = P4 l zero4 /\ lin_calls 0 l = [(l, zero4)].
Proof.
  intros H. unfold lin, lin_calls. rewrite H. cbn [Nat.leb].
  replace (bsize 0 8) with 8 by reflexivity. rewrite (chunks_short 8 l) by (try lia; destruct l; discriminate).
  cbn [map concat]. rewrite !app_nil_r. rewrite H1_len. cbn [Nat.leb].
  rewrite (pad_full 4) by apply H1_len. unfold H1, H1_calls. rewrite H. cbn [Nat.leb].
  unfold blocks8. rewrite (chunks_short 8 l) by (try lia; destruct l; discriminate).
  cbn [map chain chain_calls]. rewrite pad_full by exact H. auto.
Qed.

End Hash.

(* rows are padded with zeros without recording their length *)
Theorem row_padding (perm : list Fr -> list Fr -> list Fr) (perm_len : forall i s, length (perm i s) = 12) l b :
  length l <= 3 -> lin_hash perm l b = lin_hash perm (l ++ [f0]) b.
Proof.
  intros H. rewrite !(lin_hash_eq perm perm_len). f_equal. unfold lin. rewrite app_length. cbn [length].
  destruct (Nat.leb_spec (length l) 4); [|lia]. destruct (Nat.leb_spec (length l + 1) 4); [|lia].
  unfold pad_to. rewrite app_length, <- app_assoc. cbn [length app].
  replace (4 - length l) with (S (4 - (length l + 1))) by lia. reflexivity.
Qed.

Theorem lin_hash_ok (perm : list Fr -> list Fr -> list Fr) (perm_len : forall i s, length (perm i s) = 12) l b :
  exists d, lin_hash perm l b = Ok d /\ length d = 4.
Proof. exists (lin perm b l). split; [apply lin_hash_eq; exact perm_len|apply lin_len; exact perm_len]. Qed.

Theorem lin_hash_bind (perm : list Fr -> list Fr -> list Fr) (perm_len : forall i s, length (perm i s) = 12) b l l' d :
  length l = length l' -> lin_hash perm l b = Ok d -> lin_hash perm l' b = Ok d ->
  l = l' \/ collision_in perm (lin_calls perm b l) (lin_calls perm b l').
Proof.
  intros HL E E'. rewrite (lin_hash_eq perm perm_len) in E, E'. apply (lin_bind perm perm_len b l l' HL). congruence.
Qed.
