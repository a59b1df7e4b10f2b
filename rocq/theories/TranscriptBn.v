(* Transcript over the large prime field: stale words, and what holds when word draws and absorbing
   are not interleaved. *)
From Verif Require Import Base GlModel FrField ListAux HashModel HashProof TranscriptProof BnModel.
Open Scope nat_scope.

(* operations of the transcript *)
Inductive qev : Type := QPut (es : list (list Fr)) | QWord | QField | QPerm (n b : nat).

Section Field.
Variables q rinv : Z.
Variable hash_ex : list Z -> Z -> nat -> res (list Z).
Variable permq : list Z -> Z -> list Z.
Hypothesis perm_len : forall i s, length (permq i s) = 17.
Hypothesis hash_ok : forall i s n, length i = 16 -> n <= 17 -> hash_ex i s n = Ok (firstn n (permq i s)).

Notation update_state_q := (update_state_q hash_ex).
Notation add_1_q := (add_1_q hash_ex).
Notation get_fields253 := (get_fields253 hash_ex).
Notation get_fields1_q := (get_fields1_q q rinv hash_ex).
Notation get_field_q := (get_field_q q rinv hash_ex).
Notation put_q := (put_q q hash_ex).
Notation get_permutations_q := (get_permutations_q q rinv hash_ex).
Notation split3 := (split3 q rinv).

(* one operation, with the words or positions it returns *)
Definition qstep (e : qev) (t : transcript_q) : res (list Z * transcript_q) :=
  match e with
  | QPut es => bind (put_q t es) (fun t => Ok ([], t))
  | QWord => bind (get_fields1_q t) (fun vt => Ok ([fint (fst vt)], snd vt))
  | QField => bind (get_field_q t) (fun r => let '(a, b, c, t) := r in Ok ([fint a; fint b; fint c], t))
  | QPerm n b => get_permutations_q t n b
  end.

Fixpoint qrun (h : list qev) (t : transcript_q) : res (list (list Z) * transcript_q) :=
  match h with
  | [] => Ok ([], t)
  | e :: h => bind (qstep e t) (fun ot => bind (qrun h (snd ot)) (fun rt => Ok (fst ot :: fst rt, snd rt)))
  end.

(** ** stale words *)

(* absorbing fewer than sixteen values never touches the leftover words *)
Lemma put_out3 es : forall t t', length (q_pending t) + length es < 16 -> put_q t es = Ok t' ->
  q_out3 t' = q_out3 t /\ length (q_pending t') = length (q_pending t) + length es.
Proof.
  unfold BnModel.put_q. induction es as [|e es IH]; intros t t' HL H; cbn [foldM] in H.
  - injection H as <-. cbn [length]. split; [reflexivity|lia].
  - destruct (put_value q e) as [v| | |]; try discriminate H. cbn [bind] in H. cbn [length] in HL.
    unfold BnModel.add_1_q in H at 1. cbn [q_pending] in H. rewrite app_length in H. cbn [length] in H.
    destruct (Nat.eqb_spec (length (q_pending t) + 1) 16); [lia|]. cbn [bind] in H.
    apply IH in H; [|cbn [q_pending]; rewrite app_length; cbn [length]; lia].
    cbn [q_out3 q_pending] in H. rewrite app_length in H. cbn [length] in *. destruct H. split; [assumption|lia].
Qed.

(* the next word is the left over one, whatever has just been absorbed *)
Theorem stale_word t v r es t' : q_out3 t = v :: r -> length (q_pending t) + length es < 16 -> put_q t es = Ok t' ->
  exists t'', get_fields1_q t' = Ok (v, t'').
Proof.
  intros E HL H. destruct (put_out3 es t t' HL H) as [E3 _]. unfold BnModel.get_fields1_q, pop3. rewrite E3, E.
  eexists. reflexivity.
Qed.

(* draw one word, absorb y, draw again: both words come from the hash made before y was absorbed *)
Theorem stale_history a y v : put_value q y = Ok v -> (fint a < q)%Z ->
  let o := hd 0%Z (permq ((fint a * R256 mod q)%Z :: repeat 0%Z 15) 0%Z) in
  exists t', qrun [QPut [[a]]; QWord; QPut [y]; QWord] tq_new =
    Ok ([[]; [fint (nth 0 (split3 o) f0)]; []; [fint (nth 1 (split3 o) f0)]], t').
Proof.
  intros Hy Ha o. cbn [qrun]. unfold qstep at 1. unfold BnModel.put_q at 1. cbn [foldM].
  unfold put_value at 1. unfold q_from_repr. destruct (Z.ltb_spec (fint a) q) as [_|Q]; [|lia]. cbn [unwrap bind].
  set (m := (fint a * R256 mod q)%Z) in *.
  unfold BnModel.add_1_q at 1. cbn [q_pending q_state q_out q_out3 tq_new app length Nat.eqb bind fst snd].
  unfold qstep at 1. unfold BnModel.get_fields1_q at 1. unfold pop3 at 1, refill3 at 1. cbn [q_out3 q_out].
  unfold BnModel.update_state_q at 1. cbn [q_pending q_state length Nat.sub app].
  rewrite hash_ok by (cbn; lia). rewrite firstn_all2 by (rewrite perm_len; lia). cbn [bind].
  unfold o. destruct (permq (m :: repeat 0%Z 15) 0%Z) as [|x l] eqn:E.
  { pose proof (perm_len (m :: repeat 0%Z 15) 0%Z) as L. rewrite E in L. discriminate L. }
  cbn [hd vget nth_error bind]. unfold refill3. cbn [q_out q_state q_pending].
  assert (E3 : exists w0 w1 w2, split3 x = [w0; w1; w2]) by (unfold BnModel.split3; cbn [seq map]; eauto).
  destruct E3 as (w0 & w1 & w2 & E3). rewrite E3. unfold pop3 at 1. cbn [q_out3 q_out q_state q_pending bind fst snd].
  unfold qstep at 1. unfold BnModel.put_q at 1. cbn [foldM]. rewrite Hy. cbn [bind].
  unfold BnModel.add_1_q at 1. cbn [q_pending q_state q_out q_out3 app length Nat.eqb bind fst snd].
  unfold qstep, BnModel.get_fields1_q, pop3. cbn [q_out3 q_out q_state q_pending bind fst snd nth].
  eexists. reflexivity.
Qed.

(** ** histories that never draw a single word *)

Inductive qel : Type := QA (v : Z) | QG.

Definition qwf (t : transcript_q) : Prop := length (q_pending t) < 16 /\ q_out3 t = [].

Definition updq (t : transcript_q) : transcript_q :=
  let o := permq (q_pending t ++ repeat 0%Z (16 - length (q_pending t))) (q_state t) in mkTq (hd 0%Z o) [] o [].

Definition addq (t : transcript_q) (v : Z) : transcript_q :=
  let t := mkTq (q_state t) (q_pending t ++ [v]) [] [] in
  if length (q_pending t) =? 16 then updq t else t.

Definition getq (t : transcript_q) : Z * transcript_q :=
  let t := match q_out t with [] => updq t | _ => t end in
  (hd 0%Z (q_out t), mkTq (q_state t) (q_pending t) (tl (q_out t)) []).

Lemma updq_eq t : length (q_pending t) <= 16 -> update_state_q t = Ok (updq t).
Proof.
  intros H. unfold BnModel.update_state_q. rewrite hash_ok by (try lia; rewrite app_length, repeat_length; lia).
  rewrite firstn_all2 by (rewrite perm_len; lia). cbn [bind]. unfold updq.
  destruct (permq _ _) as [|x l] eqn:E; [|reflexivity].
  match type of E with permq ?a ?b = _ => pose proof (perm_len a b) as L end. rewrite E in L. discriminate L.
Qed.

Lemma updq_wf t : qwf (updq t) /\ length (q_out (updq t)) = 17.
Proof. unfold qwf, updq. cbn [q_pending q_out q_out3 length]. rewrite perm_len. split; [split; [lia|reflexivity]|reflexivity]. Qed.

Lemma addq_eq t v : qwf t -> add_1_q t v = Ok (addq t v) /\ qwf (addq t v).
Proof.
  intros [Hp H3]. unfold BnModel.add_1_q, addq. rewrite H3. cbn [q_pending]. rewrite app_length. cbn [length].
  destruct (Nat.eqb_spec (length (q_pending t) + 1) 16).
  - split; [|apply updq_wf]. apply updq_eq. cbn [q_pending]. rewrite app_length. cbn. lia.
  - split; [reflexivity|]. split; cbn [q_pending q_out3]; [rewrite app_length; cbn; lia|reflexivity].
Qed.

Lemma getq_eq t : qwf t -> get_fields253 t = Ok (getq t) /\ qwf (snd (getq t)).
Proof.
  intros [Hp H3]. unfold BnModel.get_fields253, getq. destruct (q_out t) as [|v r] eqn:E.
  - rewrite updq_eq by lia. cbn [bind]. pose proof (updq_wf t) as [[W1 W2] L].
    destruct (q_out (updq t)) as [|v r]; [discriminate L|]. rewrite W2. split; [reflexivity|]. split; [exact W1|reflexivity].
  - rewrite E, H3. split; [reflexivity|]. split; [exact Hp|reflexivity].
Qed.

(* three words are the three words of one draw *)
Lemma field_eq t : qwf t ->
  exists a b c, split3 (fst (getq t)) = [a; b; c] /\ get_field_q t = Ok (a, b, c, snd (getq t)).
Proof.
  intros [Hp H3].
  assert (E3 : exists w0 w1 w2, split3 (fst (getq t)) = [w0; w1; w2]) by (unfold BnModel.split3; cbn [seq map]; eauto).
  destruct E3 as (a & b & c & E3). exists a, b, c. split; [exact E3|].
  unfold BnModel.get_field_q. unfold BnModel.get_fields1_q at 1. unfold pop3 at 1. rewrite H3.
  unfold getq in *. destruct (q_out t) as [|v r] eqn:E.
  - unfold refill3 at 1. rewrite E. unfold pop3 at 1. rewrite H3. rewrite updq_eq by lia. cbn [bind].
    pose proof (updq_wf t) as [[W1 W2] L]. unfold refill3.
    destruct (q_out (updq t)) as [|v r]; [discriminate L|]. cbn [fst snd hd tl] in *. rewrite E3.
    unfold pop3 at 1. cbn [q_out3 q_out q_state q_pending bind unwrap].
    unfold BnModel.get_fields1_q at 1. unfold pop3 at 1. cbn [q_out3 q_out q_state q_pending bind unwrap].
    unfold BnModel.get_fields1_q at 1. unfold pop3 at 1. cbn [q_out3 q_out q_state q_pending bind unwrap]. reflexivity.
  - unfold refill3. rewrite E. cbn [fst snd hd tl] in *. rewrite E in *. cbn [hd tl] in *. rewrite E3.
    unfold pop3 at 1. cbn [q_out3 q_out q_state q_pending bind unwrap].
    unfold BnModel.get_fields1_q at 1. unfold pop3 at 1. cbn [q_out3 q_out q_state q_pending bind unwrap].
    unfold BnModel.get_fields1_q at 1. unfold pop3 at 1. cbn [q_out3 q_out q_state q_pending bind unwrap]. reflexivity.
Qed.

Fixpoint erunq (l : list qel) (t : transcript_q) : list Z * transcript_q :=
  match l with
  | [] => ([], t)
  | QA v :: r => erunq r (addq t v)
  | QG :: r => let vt := getq t in let ot := erunq r (snd vt) in (fst vt :: fst ot, snd ot)
  end.

Lemma erunq_app a : forall b t, snd (erunq (a ++ b) t) = snd (erunq b (snd (erunq a t))).
Proof. induction a as [|[v|] a IH]; intros b t; cbn [app erunq snd]; auto. Qed.

Lemma erunq_wf l : forall t, qwf t -> qwf (snd (erunq l t)).
Proof. induction l as [|[v|] l IH]; intros t W; cbn [erunq snd]; auto; apply IH; [apply addq_eq|apply getq_eq]; exact W. Qed.

Lemma many_eq n : forall t, qwf t -> get_many253 hash_ex n t = Ok (erunq (repeat QG n) t).
Proof.
  induction n as [|n IH]; intros t W; cbn [get_many253 repeat erunq]; [reflexivity|].
  destruct (getq_eq t W) as [E W']. rewrite E. cbn [bind]. destruct (getq t) as [v t1]. cbn [fst snd] in *.
  rewrite IH by exact W'. cbn [bind]. destruct (erunq _ _); reflexivity.
Qed.

(* the values absorbed by one put *)
Definition put_values (es : list (list Fr)) : res (list Z) := mapM (put_value q) es.

Lemma putq_eq es : forall t t', qwf t -> put_q t es = Ok t' ->
  exists vs, put_values es = Ok vs /\ t' = snd (erunq (map QA vs) t).
Proof.
  unfold BnModel.put_q, put_values. induction es as [|e es IH]; intros t t' W H; cbn [foldM mapM] in *.
  - exists []. split; [reflexivity|]. cbn. congruence.
  - destruct (put_value q e) as [v| | |]; try discriminate H. cbn [bind] in *.
    destruct (addq_eq t v W) as [E W']. rewrite E in H. cbn [bind] in H.
    destruct (IH _ _ W' H) as (vs & E1 & E2). exists (v :: vs). rewrite E1. cbn [bind map erunq]. auto.
Qed.

(* elementary steps of an operation *)
Definition flatq (e : qev) : res (list qel) :=
  match e with
  | QPut es => bind (put_values es) (fun vs => Ok (map QA vs))
  | QWord => Err
  | QField => Ok [QG]
  | QPerm n b => if n * b =? 0 then Err else Ok (repeat QG ((n * b - 1) / 253 + 1))
  end.

Definition no_word (h : list qev) : Prop := ~ In QWord h.

Lemma step_flat e t o t' : e <> QWord -> qwf t -> qstep e t = Ok (o, t') ->
  exists l, flatq e = Ok l /\ t' = snd (erunq l t) /\ qwf t'.
Proof.
  intros HN W H. destruct e as [es| | |n b]; cbn [qstep flatq] in *; [|congruence| |].
  - destruct (put_q t es) as [t1| | |] eqn:E; try discriminate H. cbn [bind] in H. assert (t1 = t') by congruence. subst t1.
    destruct (putq_eq es t t' W E) as (vs & E1 & E2). rewrite E1. cbn [bind]. eexists. split; [reflexivity|].
    split; [exact E2|]. rewrite E2. apply erunq_wf. exact W.
  - destruct (field_eq t W) as (a & b & c & _ & E). rewrite E in H. cbn [bind] in H.
    eexists. split; [reflexivity|]. cbn [erunq snd]. assert (t' = snd (getq t)) by congruence. subst t'.
    split; [reflexivity|]. apply getq_eq. exact W.
  - unfold BnModel.get_permutations_q in H. destruct (n * b =? 0); [discriminate H|].
    rewrite many_eq in H by exact W. cbn [bind] in H. destruct (erunq _ t) as [fs t1] eqn:E.
    destruct (bit_groups _ _ _ _ _ _) as [r| | |]; try discriminate H. cbn [bind] in H. assert (t1 = t') by congruence. subst t1.
    eexists. split; [reflexivity|]. rewrite E. cbn [snd]. split; [reflexivity|].
    pose proof (erunq_wf (repeat QG ((n * b - 1) / 253 + 1)) t W) as W'. rewrite E in W'. exact W'.
Qed.

Fixpoint flats (h : list qev) : res (list qel) :=
  match h with
  | [] => Ok []
  | e :: h => bind (flatq e) (fun a => bind (flats h) (fun b => Ok (a ++ b)))
  end.

Lemma run_flat h : forall t os t', no_word h -> qwf t -> qrun h t = Ok (os, t') ->
  exists l, flats h = Ok l /\ t' = snd (erunq l t) /\ qwf t'.
Proof.
  induction h as [|e h IH]; intros t os t' HN W H; cbn [qrun flats] in *.
  - exists []. split; [reflexivity|]. cbn. assert (t = t') by congruence. subst t'. auto.
  - destruct (qstep e t) as [[o t1]| | |] eqn:E; try discriminate H. cbn [bind fst snd] in H.
    destruct (qrun h t1) as [[os' t2]| | |] eqn:E2; try discriminate H. cbn [bind fst snd] in H.
    assert (t2 = t') by congruence. subst t2.
    destruct (step_flat e t o t1) as (l & L1 & L2 & W1); [intros ->; apply HN; left; reflexivity|exact W|exact E|].
    destruct (IH t1 os' t') as (l' & L3 & L4 & W2); [intros X; apply HN; right; exact X|exact W1|exact E2|].
    rewrite L1, L3. cbn [bind]. exists (l ++ l'). split; [reflexivity|]. rewrite erunq_app, <- L2. auto.
Qed.

(* no word of an earlier hash survives an operation *)
Theorem no_leftover h os t : no_word h -> qrun h tq_new = Ok (os, t) -> q_out3 t = [].
Proof.
  intros HN H. destruct (run_flat h tq_new os t HN) as (l & _ & _ & [_ W]); auto. split; [cbn; lia|reflexivity].
Qed.

(** ** binding *)

Definition qcall : Type := (list Z * Z)%type.
Definition qcollision (cs ds : list qcall) : Prop := exists c d, In c cs /\ In d ds /\ c <> d /\
  hd 0%Z (permq (fst c) (snd c)) = hd 0%Z (permq (fst d) (snd d)).

Definition qpad (l : list Z) : list Z := l ++ repeat 0%Z (16 - length l).

Fixpoint ecallsq (l : list qel) (t : transcript_q) : list qcall :=
  match l with
  | [] => []
  | QA v :: r =>
    (if length (q_pending t) + 1 =? 16 then [(q_pending t ++ [v], q_state t)] else []) ++ ecallsq r (addq t v)
  | QG :: r =>
    match q_out t with [] => [(qpad (q_pending t), q_state t)] | _ => [] end ++ ecallsq r (snd (getq t))
  end.

Definition sameq (t t' : transcript_q) : Prop :=
  length (q_pending t) = length (q_pending t') /\ length (q_out t) = length (q_out t').

Definition qkind (a b : qel) : Prop := match a, b with QA _, QA _ => True | QG, QG => True | _, _ => False end.

Definition dataq (l : list qel) : list Z := concat (map (fun x => match x with QA v => [v] | QG => [] end) l).

Lemma qcall_dec (c d : qcall) : {c = d} + {c <> d}.
Proof. decide equality; [apply Z.eq_dec|apply list_eq_dec, Z.eq_dec]. Qed.

Lemma qpad_inj l l' : length l = length l' -> qpad l = qpad l' -> l = l'.
Proof. intros HL H. unfold qpad in H. rewrite HL in H. exact (app_inv_tail _ _ _ H). Qed.

Lemma qpad_full l : length l = 16 -> qpad l = l.
Proof. intros H. unfold qpad. rewrite H. apply app_nil_r. Qed.

Lemma qcollision_mono cs cs' ds ds' : incl cs cs' -> incl ds ds' -> qcollision cs ds -> qcollision cs' ds'.
Proof. intros I1 I2 (c & d & Hc & Hd & X). exists c, d. auto. Qed.

Lemma updq_bind t t' : length (q_pending t) = length (q_pending t') -> q_state (updq t) = q_state (updq t') ->
  (q_pending t = q_pending t' /\ q_state t = q_state t') \/
  qcollision [(qpad (q_pending t), q_state t)] [(qpad (q_pending t'), q_state t')].
Proof.
  intros HL E. destruct (qcall_dec (qpad (q_pending t), q_state t) (qpad (q_pending t'), q_state t')) as [Q|Q].
  - left. assert (Q1 : qpad (q_pending t) = qpad (q_pending t')) by congruence. apply qpad_inj in Q1; [|exact HL].
    split; [exact Q1|congruence].
  - right. eexists; eexists. split; [left; reflexivity|]. split; [left; reflexivity|]. split; [exact Q|exact E].
Qed.

Lemma same_updq t t' : sameq (updq t) (updq t').
Proof. split; [reflexivity|]. unfold updq. cbn [q_out]. rewrite !perm_len. reflexivity. Qed.

Lemma erunq_bind l : forall l' t t', Forall2 qkind l l' -> qwf t -> qwf t' -> sameq t t' ->
  q_state (snd (erunq l t)) = q_state (snd (erunq l' t')) ->
  q_pending (snd (erunq l t)) = q_pending (snd (erunq l' t')) ->
  (dataq l = dataq l' /\ q_state t = q_state t' /\ q_pending t = q_pending t') \/
  qcollision (ecallsq l t) (ecallsq l' t').
Proof.
  induction l as [|a l IH]; intros l' t t' HF W W' S E1 E2; inversion HF as [|? b ? r' K HF']; subst.
  - cbn in E1, E2. left. auto.
  - destruct a as [e|], b as [e'|]; cbn [qkind] in K; try contradiction; cbn [erunq snd] in E1, E2; cbn [ecallsq].
    + destruct (addq_eq t e W) as [_ Wa]. destruct (addq_eq t' e' W') as [_ Wa']. destruct S as [S1 S2].
      assert (Sa : sameq (addq t e) (addq t' e')).
      { unfold addq. cbn [q_pending]. rewrite !app_length, S1. cbn [length].
        destruct (length (q_pending t') + 1 =? 16); [apply same_updq|]. split; cbn [q_pending q_out]; [|reflexivity].
        rewrite !app_length, S1. reflexivity. }
      destruct (IH r' _ _ HF' Wa Wa' Sa E1 E2) as [(D & D1 & D2)|C].
      * unfold addq in D1, D2. cbn [q_pending] in D1, D2. rewrite !app_length in D1, D2. rewrite S1 in *. cbn [length] in D1, D2.
        destruct (Nat.eqb_spec (length (q_pending t') + 1) 16) as [Q|Q].
        -- apply updq_bind in D1; [|cbn [q_pending]; rewrite !app_length, S1; reflexivity]. cbn [q_pending q_state] in D1.
           destruct D1 as [[Q1 Q2]|C].
           ++ left. apply app_eq_len in Q1; [|exact S1]. destruct Q1 as [Q1 Q3]. injection Q3 as ->.
              unfold dataq in *. cbn [map concat]. rewrite D. auto.
           ++ right. rewrite !qpad_full in C by (rewrite app_length; cbn [length]; lia).
              eapply qcollision_mono; [| |exact C]; intros c Hc; apply in_or_app; auto.
        -- left. apply app_eq_len in D2; [|exact S1]. destruct D2 as [D2 D3]. injection D3 as ->.
           unfold dataq in *. cbn [map concat]. rewrite D. auto.
      * right. eapply qcollision_mono; [| |exact C]; intros c Hc; apply in_or_app; auto.
    + destruct (getq_eq t W) as [_ Wa]. destruct (getq_eq t' W') as [_ Wa']. destruct S as [S1 S2].
      assert (Sa : sameq (snd (getq t)) (snd (getq t'))).
      { unfold getq. destruct (q_out t) as [|x o] eqn:Eo, (q_out t') as [|x' o'] eqn:Eo'; cbn in S2; try lia.
        - cbn zeta. cbn [snd]. destruct (same_updq t t') as [U1 U2]. split; cbn [q_pending q_out]; [exact U1|].
          destruct (q_out (updq t)), (q_out (updq t')); cbn in *; try lia.
        - cbn zeta. cbn [snd q_out]. rewrite Eo, Eo'. split; cbn [q_pending q_out tl]; lia. }
      destruct (IH r' _ _ HF' Wa Wa' Sa E1 E2) as [(D & D1 & D2)|C].
      * unfold getq in D1, D2. destruct (q_out t) as [|x o] eqn:Eo, (q_out t') as [|x' o'] eqn:Eo'; cbn in S2; try lia.
        -- cbn [snd q_state] in D1. destruct (updq_bind t t' S1 D1) as [[Q1 Q2]|C].
           ++ left. unfold dataq in *. cbn [map concat app]. auto.
           ++ right. eapply qcollision_mono; [| |exact C]; intros c Hc; apply in_or_app; auto.
        -- left. cbn [snd q_state q_pending] in D1, D2. unfold dataq in *. cbn [map concat app]. auto.
      * right. eapply qcollision_mono; [| |exact C]; intros c Hc; apply in_or_app; auto.
Qed.

(* everything absorbed, as field elements *)
Definition absorbedq (h : list qev) : res (list Z) :=
  put_values (concat (map (fun e => match e with QPut es => es | _ => [] end) h)).

(* the same operations, absorbing the same numbers of values *)
Definition same_shapeq (h h' : list qev) : Prop :=
  Forall2 (fun e e' => match e, e' with
    | QPut es, QPut es' => length es = length es'
    | QWord, QWord => True
    | QField, QField => True
    | QPerm n b, QPerm n' b' => n = n' /\ b = b'
    | _, _ => False
    end) h h'.

(* the hash calls of a history *)
Definition qcalls (h : list qev) : list qcall := match flats h with Ok l => ecallsq l tq_new | _ => [] end.

Lemma dataq_app a b : dataq (a ++ b) = dataq a ++ dataq b.
Proof. unfold dataq. rewrite map_app, concat_app. reflexivity. Qed.

Lemma dataq_A vs : dataq (map QA vs) = vs.
Proof. induction vs as [|v vs IH]; [reflexivity|]. cbn [map]. change (dataq (QA v :: map QA vs)) with (v :: dataq (map QA vs)). rewrite IH. reflexivity. Qed.

Lemma dataq_G n : dataq (repeat QG n) = [].
Proof. induction n as [|n IH]; [reflexivity|]. exact IH. Qed.

Lemma put_values_app a b : put_values (a ++ b) =
  bind (put_values a) (fun x => bind (put_values b) (fun y => Ok (x ++ y))).
Proof.
  unfold put_values. induction a as [|e a IH]; cbn [app mapM bind]; [destruct (mapM _ b); reflexivity|].
  destruct (put_value q e); cbn [bind]; auto. rewrite IH. destruct (mapM _ a); cbn [bind]; auto. destruct (mapM _ b); reflexivity.
Qed.

Lemma put_values_len es : forall vs, put_values es = Ok vs -> length vs = length es.
Proof.
  unfold put_values. induction es as [|e es IH]; intros vs H; cbn [mapM] in H; [assert (vs = []) as -> by congruence; reflexivity|].
  destruct (put_value q e); try discriminate H. cbn [bind] in H. destruct (mapM _ es) as [r| | |]; try discriminate H.
  cbn [bind] in H. assert (vs = a :: r) by congruence. subst vs. cbn [length]. rewrite (IH r eq_refl). reflexivity.
Qed.

Lemma flats_data h : forall l, flats h = Ok l -> absorbedq h = Ok (dataq l).
Proof.
  unfold absorbedq. induction h as [|e h IH]; intros l H; cbn [flats map concat] in *; [assert (l = []) as -> by congruence; reflexivity|].
  destruct (flatq e) as [a| | |] eqn:Ea; try discriminate H. cbn [bind] in H.
  destruct (flats h) as [b| | |]; try discriminate H. cbn [bind] in H. assert (l = a ++ b) by congruence. subst l.
  rewrite put_values_app, (IH b eq_refl), dataq_app. destruct e as [es| | |n m]; cbn [flatq] in Ea; try discriminate Ea.
  - destruct (put_values es) as [vs| | |]; try discriminate Ea. cbn [bind] in *. assert (a = map QA vs) by congruence. subst a.
    rewrite dataq_A. reflexivity.
  - assert (a = [QG]) by congruence. subst a. reflexivity.
  - destruct (n * m =? 0); [discriminate Ea|]. assert (a = repeat QG ((n * m - 1) / 253 + 1)) by congruence. subst a.
    rewrite dataq_G. reflexivity.
Qed.

Lemma kind_QA vs : forall vs', length vs = length vs' -> Forall2 qkind (map QA vs) (map QA vs').
Proof. induction vs as [|e vs IH]; intros [|e' vs'] H; cbn in H; try lia; cbn [map]; constructor; cbn; auto. Qed.

Lemma kind_QG n : Forall2 qkind (repeat QG n) (repeat QG n).
Proof. induction n; cbn [repeat]; constructor; cbn; auto. Qed.

Lemma flats_kind h : forall h' l l', same_shapeq h h' -> flats h = Ok l -> flats h' = Ok l' -> Forall2 qkind l l'.
Proof.
  induction h as [|e h IH]; intros h' l l' S H H'; inversion S as [|? e' ? r' K S']; subst; cbn [flats] in *.
  - assert (l = []) as -> by congruence. assert (l' = []) as -> by congruence. constructor.
  - destruct (flatq e) as [a| | |] eqn:Ea; try discriminate H. cbn [bind] in H.
    destruct (flats h) as [b| | |]; try discriminate H. cbn [bind] in H. assert (l = a ++ b) by congruence. subst l.
    destruct (flatq e') as [a'| | |] eqn:Ea'; try discriminate H'. cbn [bind] in H'.
    destruct (flats r') as [b'| | |] eqn:Er; try discriminate H'. cbn [bind] in H'. assert (l' = a' ++ b') by congruence. subst l'.
    apply Forall2_app; [|eapply IH; eauto].
    destruct e as [es| | |n m], e' as [es'| | |n' m']; try contradiction; cbn [flatq] in *; try discriminate Ea.
    + destruct (put_values es) as [vs| | |] eqn:Ev; try discriminate Ea. destruct (put_values es') as [vs'| | |] eqn:Ev'; try discriminate Ea'.
      cbn [bind] in *. assert (a = map QA vs) by congruence. assert (a' = map QA vs') by congruence. subst.
      apply kind_QA. apply put_values_len in Ev. apply put_values_len in Ev'. lia.
    + assert (a = [QG]) by congruence. assert (a' = [QG]) by congruence. subst. repeat constructor.
    + destruct K as [-> ->]. destruct (n' * m' =? 0); [discriminate Ea|].
      assert (a = a') by congruence. subst a'. assert (a = repeat QG ((n' * m' - 1) / 253 + 1)) by congruence. subst a. apply kind_QG.
Qed.

Theorem state_binds_q h h' os os' t t' : no_word h -> no_word h' -> same_shapeq h h' ->
  qrun h tq_new = Ok (os, t) -> qrun h' tq_new = Ok (os', t') ->
  q_state t = q_state t' -> q_pending t = q_pending t' ->
  absorbedq h = absorbedq h' \/ qcollision (qcalls h) (qcalls h').
Proof.
  intros N N' S E E' Es Ep. assert (W : qwf tq_new) by (split; [cbn; lia|reflexivity]).
  destruct (run_flat h tq_new os t N W E) as (l & L & -> & _). destruct (run_flat h' tq_new os' t' N' W E') as (l' & L' & -> & _).
  destruct (erunq_bind l l' tq_new tq_new (flats_kind h h' l l' S L L') W W ltac:(split; reflexivity) Es Ep) as [(Q & _)|C].
  - left. rewrite (flats_data h l L), (flats_data h' l' L'), Q. reflexivity.
  - right. unfold qcalls. rewrite L, L'. exact C.
Qed.

(* after something is absorbed, the next field element is the three words of the new state *)
Definition freshq (t : transcript_q) : Prop := q_out t = [] \/ (q_pending t = [] /\ hd_error (q_out t) = Some (q_state t)).

Lemma addq_fresh t v : freshq (addq t v).
Proof.
  unfold addq. cbn [q_pending]. destruct (_ =? 16); [right|left; reflexivity].
  unfold updq. cbn [q_pending q_out q_state].
  match goal with |- context [permq ?a ?b] => pose proof (perm_len a b) as L; destruct (permq a b); [discriminate L|] end.
  split; reflexivity.
Qed.

Lemma putq_fresh vs : forall t, vs <> [] -> freshq (snd (erunq (map QA vs) t)).
Proof.
  induction vs as [|e l IH]; intros t H; [congruence|]. cbn [map erunq].
  destruct l as [|e' l]; [cbn [map erunq snd]; apply addq_fresh|]. apply IH. discriminate.
Qed.

Theorem field_is_state h es os t : no_word h -> es <> [] ->
  qrun (h ++ [QPut es; QField]) tq_new = Ok (os, t) ->
  q_pending t = [] /\ last os [] = map fint (split3 (q_state t)).
Proof.
  intros HN HE H. assert (W : qwf tq_new) by (split; [cbn; lia|reflexivity]).
  assert (X : forall h t os t', no_word h -> qwf t -> qrun (h ++ [QPut es; QField]) t = Ok (os, t') ->
    q_pending t' = [] /\ last os [] = map fint (split3 (q_state t'))).
  { clear - HE perm_len hash_ok. induction h as [|e h IH]; intros t os t' HN W H; cbn [app qrun] in H.
    - destruct (qstep (QPut es) t) as [[o t1]| | |] eqn:E; try discriminate H. cbn [bind fst snd] in H.
      cbn [qstep] in E. destruct (put_q t es) as [t2| | |] eqn:E2; try discriminate E. cbn [bind] in E.
      assert (t2 = t1) by congruence. assert (o = []) by congruence. subst t2 o.
      destruct (putq_eq es t t1 W E2) as (vs & Ev & Et).
      assert (W1 : qwf t1) by (rewrite Et; apply erunq_wf; exact W).
      assert (F : freshq t1).
      { rewrite Et. apply putq_fresh. intros ->. apply put_values_len in Ev. destruct es; [congruence|discriminate Ev]. }
      cbn [qstep] in H. destruct (field_eq t1 W1) as (a & b & c & E3 & E4). rewrite E4 in H. cbn [bind fst snd] in H.
      assert (t' = snd (getq t1)) by congruence. assert (os = [[]; [fint a; fint b; fint c]]) by congruence. subst.
      cbn [last]. change [fint a; fint b; fint c] with (map fint [a; b; c]). rewrite <- E3.
      unfold getq. destruct F as [F|[F1 F2]].
      + rewrite F. cbn [fst snd q_pending q_state updq q_out]. split; reflexivity.
      + destruct (q_out (snd (erunq (map QA vs) t))) as [|x l] eqn:Eo; [discriminate F2|]. cbn [fst snd q_pending q_state].
        rewrite Eo. cbn [hd hd_error] in *. split; [exact F1|]. congruence.
    - destruct (qstep e t) as [[o t1]| | |] eqn:E; try discriminate H. cbn [bind fst snd] in H.
      destruct (qrun (h ++ [QPut es; QField]) t1) as [[os' t2]| | |] eqn:E2; try discriminate H. cbn [bind fst snd] in H.
      destruct (step_flat e t o t1) as (l & _ & _ & W1); [intros ->; apply HN; left; reflexivity|exact W|exact E|].
      destruct (IH t1 os' t2) as [R1 R2]; [intros Z; apply HN; right; exact Z|exact W1|exact E2|].
      assert (t2 = t') by congruence. assert (os = o :: os') by congruence. subst.
      split; [exact R1|]. destruct os' as [|x y]; [|exact R2].
      exfalso. destruct h; cbn [app qrun] in E2; destruct (qstep _ t1) as [[? ?]| | |]; try discriminate E2; cbn [bind fst snd] in E2;
        match type of E2 with bind ?z _ = _ => destruct z as [[? ?]| | |] end; try discriminate E2. }
  eapply X; eauto.
Qed.

(* query positions: n numbers of b bits, from 253 bits per field element *)
Theorem permutations_q t n b : qwf t -> 0 < n * b -> b <= 64 ->
  exists fields t' r,
    get_many253 hash_ex ((n * b - 1) / 253 + 1) t = Ok (fields, t') /\
    get_permutations_q t n b = Ok (r, t') /\ length r = n /\
    forall i, i < n ->
      (0 <= nth i r 0 < 2 ^ Z.of_nat b)%Z /\
      forall j, j < b -> Z.testbit (nth i r 0%Z) (Z.of_nat j) =
        Z.testbit (q_value q rinv (nth ((i * b + j) / 253) fields 0%Z)) (Z.of_nat ((i * b + j) mod 253)).
Proof.
  intros W H0 Hb. pose proof (many_eq ((n * b - 1) / 253 + 1) t W) as E.
  assert (L : forall k t, length (fst (erunq (repeat QG k) t)) = k).
  { clear. induction k as [|k IH]; intros t; cbn [repeat erunq fst length]; [reflexivity|]. rewrite IH. reflexivity. }
  specialize (L ((n * b - 1) / 253 + 1) t). destruct (erunq (repeat QG ((n * b - 1) / 253 + 1)) t) as [fields t'].
  cbn [fst] in L. set (val := q_value q rinv).
  assert (K : 253 <> 0) by discriminate.
  exists fields, t', (map (fun i => group 253 (map val fields) (0 + i * b) b) (seq 0 n)).
  assert (HB : forall i, i < n * b -> (0 + i) / 253 < length (map val fields)).
  { intros i Hi. rewrite map_length, L. cbn [Nat.add].
    assert (i / 253 <= (n * b - 1) / 253) by (apply Nat.div_le_mono; [exact K|lia]).
    generalize dependent (i / 253). generalize ((n * b - 1) / 253). clear. intros a b H. lia. }
  split; [exact E|]. split; [|split].
  - unfold BnModel.get_permutations_q. destruct (Nat.eqb_spec (n * b) 0); [lia|]. rewrite E. cbn [bind].
    pose proof (groups_eq 253 K (map val fields) b Hb n 0 HB) as EG.
    rewrite Nat.div_0_l, Nat.mod_0_l in EG by exact K.
    change (Z.of_nat 253) with 253%Z in EG. change (Z.of_nat 0) with 0%Z in EG. fold val. rewrite EG. reflexivity.
  - rewrite map_length, seq_length. reflexivity.
  - intros i Hi.
    assert (EN : nth i (map (fun i => group 253 (map val fields) (0 + i * b) b) (seq 0 n)) 0%Z = group 253 (map val fields) (i * b) b).
    { assert (Q : nth_error (map (fun i => group 253 (map val fields) (0 + i * b) b) (seq 0 n)) i = Some (group 253 (map val fields) (i * b) b)).
      { rewrite nth_error_map, (nth_error_nth_lt _ _ 0) by (rewrite seq_length; exact Hi). rewrite seq_nth by exact Hi. reflexivity. }
      apply nth_error_nth. exact Q. }
    rewrite EN. split; [apply group_bound; exact K|]. intros j Hj. rewrite group_bits by assumption. unfold sbit.
    f_equal. assert (HI : i * b + j < n * b) by nia. specialize (HB (i * b + j) HI). cbn [Nat.add] in HB. rewrite map_length in HB.
    rewrite (nth_indep _ 0%Z (val 0%Z)) by (rewrite map_length; exact HB). apply map_nth.
Qed.

End Field.
