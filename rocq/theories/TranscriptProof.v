(* Goldilocks transcript: totality, binding of challenges to absorbed data, query positions. *)
From Verif Require Import Base GlModel FrField ListAux HashModel HashProof.
Open Scope nat_scope.

(* operations on a transcript *)
Inductive ev : Type := EPut (es : list (list Fr)) | EGet.

(* one value is absorbed, or one challenge is drawn *)
Inductive el : Type := A (e : Fr) | G.

Definition flat1 (e : ev) : list el := match e with EPut es => map A (concat es) | EGet => [G] end.
Definition flat (h : list ev) : list el := concat (map flat1 h).

(* everything absorbed *)
Definition absorbed (h : list ev) : list Fr :=
  concat (map (fun e => match e with EPut es => concat es | EGet => [] end) h).

(* the same sequence of operations, absorbing the same numbers of values *)
Definition same_shape (h h' : list ev) : Prop :=
  Forall2 (fun e e' => match e, e' with
    | EPut es, EPut es' => length (concat es) = length (concat es')
    | EGet, EGet => True
    | _, _ => False
    end) h h'.

Section Hash.
Variable perm : list Fr -> list Fr -> list Fr.
Hypothesis perm_len : forall i s, length (perm i s) = 12.
Notation P4 := (P4 perm).

(* the operations in sequence, with the challenges drawn *)
Fixpoint run (h : list ev) (t : transcript) : res (list Fr * transcript) :=
  match h with
  | [] => Ok ([], t)
  | EPut es :: h => bind (put perm t es) (fun t => run h t)
  | EGet :: h => bind (get_fields1 perm t) (fun vt => bind (run h (snd vt)) (fun ot => Ok (fst vt :: fst ot, snd ot)))
  end.

(** ** closed forms *)

Definition wf (t : transcript) : Prop := length (tr_state t) = 4 /\ length (tr_pending t) < 8.

Definition upd (t : transcript) : transcript :=
  let o := perm (pad_to 8 (tr_pending t)) (tr_state t) in mkTr (firstn 4 o) [] o.

Definition addp (t : transcript) (e : Fr) : transcript :=
  let t := mkTr (tr_state t) (tr_pending t ++ [e]) [] in
  if length (tr_pending t) =? 8 then upd t else t.

Definition getp (t : transcript) : Fr * transcript :=
  let t := match tr_out t with [] => upd t | _ => t end in
  (hd f0 (tr_out t), mkTr (tr_state t) (tr_pending t) (tl (tr_out t))).

Lemma upd_eq t : length (tr_state t) = 4 -> length (tr_pending t) <= 8 -> update_state perm t = Ok (upd t).
Proof.
  intros Hs Hp. unfold update_state. rewrite poseidon_ok by (auto; apply pad_len; exact Hp).
  cbn [bind]. rewrite firstn_all2 by (rewrite perm_len; lia). unfold slice. rewrite perm_len.
  cbn [Nat.leb Nat.add skipn bind]. reflexivity.
Qed.

Lemma upd_wf t : wf (upd t) /\ length (tr_out (upd t)) = 12.
Proof.
  unfold wf, upd. cbn [tr_state tr_pending tr_out length]. rewrite firstn_length, perm_len. cbn. lia.
Qed.

Lemma add_eq t e : wf t -> add_1 perm t e = Ok (addp t e) /\ wf (addp t e).
Proof.
  intros [Hs Hp]. unfold add_1, addp. cbn [tr_pending]. rewrite app_length. cbn [length].
  destruct (Nat.eqb_spec (length (tr_pending t) + 1) 8) as [E|E].
  - split; [|apply upd_wf]. apply upd_eq; cbn [tr_state tr_pending]; [exact Hs|rewrite app_length; cbn; lia].
  - split; [reflexivity|]. split; cbn [tr_state tr_pending]; [exact Hs|rewrite app_length; cbn; lia].
Qed.

Lemma get_eq t : wf t -> get_fields1 perm t = Ok (getp t) /\ wf (snd (getp t)).
Proof.
  intros [Hs Hp]. unfold get_fields1, getp. destruct (tr_out t) as [|v r] eqn:E.
  - rewrite upd_eq by (auto; lia). cbn [bind].
    pose proof (upd_wf t) as [W L]. destruct (tr_out (upd t)) as [|v r]; [discriminate L|]. split; [reflexivity|exact W].
  - rewrite E. split; [reflexivity|]. split; assumption.
Qed.

Fixpoint erun (l : list el) (t : transcript) : list Fr * transcript :=
  match l with
  | [] => ([], t)
  | A e :: r => erun r (addp t e)
  | G :: r => let vt := getp t in let ot := erun r (snd vt) in (fst vt :: fst ot, snd ot)
  end.

Lemma erun_app a : forall b t, erun (a ++ b) t =
  (fst (erun a t) ++ fst (erun b (snd (erun a t))), snd (erun b (snd (erun a t)))).
Proof.
  induction a as [|[e|] a IH]; intros b t; cbn [app erun fst snd].
  - destruct (erun b t); reflexivity.
  - apply IH.
  - rewrite IH. reflexivity.
Qed.

Lemma erun_wf l : forall t, wf t -> wf (snd (erun l t)).
Proof.
  induction l as [|[e|] l IH]; intros t W; cbn [erun snd]; auto; apply IH; [apply add_eq|apply get_eq]; exact W.
Qed.

Lemma add_list es : forall t, wf t -> foldM (add_1 perm) es t = Ok (snd (erun (map A es) t)).
Proof.
  induction es as [|e es IH]; intros t W; cbn [foldM map erun]; [reflexivity|].
  destruct (add_eq t e W) as [E W']. rewrite E. cbn [bind]. apply IH. exact W'.
Qed.

Lemma put_eq es : forall t, wf t -> put perm t es = Ok (snd (erun (map A (concat es)) t)).
Proof.
  unfold put. induction es as [|e es IH]; intros t W; cbn [foldM concat]; [reflexivity|].
  rewrite add_list by exact W. cbn [bind]. rewrite IH by (apply erun_wf; exact W).
  rewrite map_app, erun_app. reflexivity.
Qed.

Lemma fst_adds es : forall t, fst (erun (map A es) t) = [].
Proof. induction es as [|e es IH]; intros t; cbn [map erun]; auto. Qed.

Theorem run_eq h : forall t, wf t -> run h t = Ok (erun (flat h) t).
Proof.
  induction h as [|[es|] h IH]; intros t W; cbn [run]; unfold flat; cbn [map concat flat1].
  - reflexivity.
  - rewrite put_eq by exact W. cbn [bind]. rewrite IH by (apply erun_wf; exact W).
    rewrite erun_app, fst_adds. cbn [app]. fold (flat h). destruct (erun (flat h) _); reflexivity.
  - destruct (get_eq t W) as [E W']. rewrite E. cbn [bind]. rewrite IH by exact W'. reflexivity.
Qed.

Lemma new_wf : wf tr_new.
Proof. split; cbn; lia. Qed.

(** ** calls and binding *)

Fixpoint ecalls (l : list el) (t : transcript) : list call :=
  match l with
  | [] => []
  | A e :: r =>
    (if length (tr_pending t) + 1 =? 8 then [(tr_pending t ++ [e], tr_state t)] else []) ++ ecalls r (addp t e)
  | G :: r =>
    match tr_out t with [] => [(pad_to 8 (tr_pending t), tr_state t)] | _ => [] end ++ ecalls r (snd (getp t))
  end.

Definition same (t t' : transcript) : Prop :=
  length (tr_pending t) = length (tr_pending t') /\ length (tr_out t) = length (tr_out t').

Definition ekind (a b : el) : Prop := match a, b with A _, A _ => True | G, G => True | _, _ => False end.

Definition data (l : list el) : list Fr := concat (map (fun x => match x with A e => [e] | G => [] end) l).

Lemma upd_bind t t' : length (tr_pending t) = length (tr_pending t') -> tr_state (upd t) = tr_state (upd t') ->
  (tr_pending t = tr_pending t' /\ tr_state t = tr_state t') \/
  collision_in perm [(pad_to 8 (tr_pending t), tr_state t)] [(pad_to 8 (tr_pending t'), tr_state t')].
Proof.
  intros HL E. destruct (call_dec (pad_to 8 (tr_pending t), tr_state t) (pad_to 8 (tr_pending t'), tr_state t')) as [Q|Q].
  - left. injection Q as Q1 Q2. apply pad_inj in Q1; auto.
  - right. eexists; eexists. split; [left; reflexivity|]. split; [left; reflexivity|]. split; [exact Q|exact E].
Qed.

Lemma same_upd t t' : same (upd t) (upd t').
Proof. split; [reflexivity|]. unfold upd. cbn [tr_out]. rewrite !perm_len. reflexivity. Qed.

Lemma erun_bind l : forall l' t t', Forall2 ekind l l' -> wf t -> wf t' -> same t t' ->
  tr_state (snd (erun l t)) = tr_state (snd (erun l' t')) ->
  tr_pending (snd (erun l t)) = tr_pending (snd (erun l' t')) ->
  (data l = data l' /\ tr_state t = tr_state t' /\ tr_pending t = tr_pending t') \/
  collision_in perm (ecalls l t) (ecalls l' t').
Proof.
  induction l as [|a l IH]; intros l' t t' HF W W' S E1 E2; inversion HF as [|? b ? r' K HF']; subst.
  - cbn in E1, E2. left. auto.
  - destruct a as [e|], b as [e'|]; cbn [ekind] in K; try contradiction; cbn [erun snd] in E1, E2; cbn [ecalls].
    + destruct (add_eq t e W) as [_ Wa]. destruct (add_eq t' e' W') as [_ Wa']. destruct S as [S1 S2].
      assert (Sa : same (addp t e) (addp t' e')).
      { unfold addp. cbn [tr_pending]. rewrite !app_length, S1. cbn [length].
        destruct (length (tr_pending t') + 1 =? 8); [apply same_upd|]. split; cbn [tr_pending tr_out]; [|reflexivity].
        rewrite !app_length, S1. reflexivity. }
      destruct (IH r' _ _ HF' Wa Wa' Sa E1 E2) as [(D & D1 & D2)|C].
      * unfold addp in D1, D2. cbn [tr_pending] in D1, D2. rewrite !app_length in D1, D2. rewrite S1 in *. cbn [length] in D1, D2.
        destruct (Nat.eqb_spec (length (tr_pending t') + 1) 8) as [Q|Q].
        -- apply upd_bind in D1; [|cbn [tr_pending]; rewrite !app_length, S1; reflexivity]. cbn [tr_pending tr_state] in D1.
           assert (PF : forall x, length x + 1 = 8 -> forall y : Fr, pad_to 8 (x ++ [y]) = x ++ [y]).
           { intros x Hx y. apply pad_full. rewrite app_length. exact Hx. }
           destruct D1 as [[Q1 Q2]|C].
           ++ left. apply app_eq_len in Q1; [|exact S1]. destruct Q1 as [Q1 Q3]. injection Q3 as ->.
              unfold data in *. cbn [map concat]. rewrite D. auto.
           ++ right. rewrite !PF in C by lia. eapply collision_mono; [| |exact C]; intros c Hc; apply in_or_app; auto.
        -- left. apply app_eq_len in D2; [|exact S1]. destruct D2 as [D2 D3]. injection D3 as ->.
           unfold data in *. cbn [map concat]. rewrite D. auto.
      * right. eapply collision_mono; [| |exact C]; intros c Hc; apply in_or_app; auto.
    + destruct (get_eq t W) as [_ Wa]. destruct (get_eq t' W') as [_ Wa']. destruct S as [S1 S2].
      assert (Sa : same (snd (getp t)) (snd (getp t'))).
      { unfold getp. destruct (tr_out t) as [|x o] eqn:Eo, (tr_out t') as [|x' o'] eqn:Eo'; cbn in S2; try lia.
        - cbn zeta. cbn [snd]. destruct (same_upd t t') as [U1 U2]. split; cbn [tr_pending tr_out]; [exact U1|].
          destruct (tr_out (upd t)), (tr_out (upd t')); cbn in *; try lia.
        - cbn zeta. cbn [snd tr_out]. rewrite Eo, Eo'. split; cbn [tr_pending tr_out tl]; lia. }
      destruct (IH r' _ _ HF' Wa Wa' Sa E1 E2) as [(D & D1 & D2)|C].
      * unfold getp in D1, D2. destruct (tr_out t) as [|x o] eqn:Eo, (tr_out t') as [|x' o'] eqn:Eo'; cbn in S2; try lia.
        -- cbn [snd tr_state] in D1. destruct (upd_bind t t' S1 D1) as [[Q1 Q2]|C].
           ++ left. unfold data in *. cbn [map concat app]. auto.
           ++ right. eapply collision_mono; [| |exact C]; intros c Hc; apply in_or_app; auto.
        -- left. cbn [snd tr_state tr_pending] in D1, D2. unfold data in *. cbn [map concat app]. auto.
      * right. eapply collision_mono; [| |exact C]; intros c Hc; apply in_or_app; auto.
Qed.

Lemma data_app a b : data (a ++ b) = data a ++ data b.
Proof. unfold data. rewrite map_app, concat_app. reflexivity. Qed.

Lemma data_A es : data (map A es) = es.
Proof. induction es as [|e es IH]; [reflexivity|]. cbn [map]. change (data (A e :: map A es)) with (e :: data (map A es)). rewrite IH. reflexivity. Qed.

Lemma data_flat h : data (flat h) = absorbed h.
Proof.
  induction h as [|[es|] h IH]; unfold flat, absorbed in *; cbn [map concat flat1]; [reflexivity| |].
  - rewrite data_app, data_A, IH. reflexivity.
  - cbn [app]. change (data (G :: concat (map flat1 h))) with (data (concat (map flat1 h))). exact IH.
Qed.

Lemma kind_A es : forall es', length es = length es' -> Forall2 ekind (map A es) (map A es').
Proof. induction es as [|e es IH]; intros [|e' es'] H; cbn in H; try lia; cbn [map]; constructor; cbn; auto. Qed.

Lemma kind_flat h : forall h', same_shape h h' -> Forall2 ekind (flat h) (flat h').
Proof.
  induction h as [|e h IH]; intros h' S; inversion S as [|? e' ? r' K S']; subst; [constructor|].
  unfold flat. cbn [map concat]. apply Forall2_app; [|apply IH; exact S'].
  destruct e, e'; try contradiction; cbn [flat1]; [apply kind_A; exact K|]. repeat constructor.
Qed.

(* the calls of a whole history *)
Definition calls (h : list ev) : list call := ecalls (flat h) tr_new.

Theorem total h : exists cs t, run h tr_new = Ok (cs, t) /\ length (tr_state t) = 4.
Proof.
  rewrite run_eq by apply new_wf. destruct (erun (flat h) tr_new) as [cs t] eqn:E. exists cs, t. split; [reflexivity|].
  pose proof (erun_wf (flat h) tr_new new_wf) as [W _]. rewrite E in W. exact W.
Qed.

Theorem state_binds h h' cs cs' t t' : same_shape h h' ->
  run h tr_new = Ok (cs, t) -> run h' tr_new = Ok (cs', t') ->
  tr_state t = tr_state t' -> tr_pending t = tr_pending t' ->
  absorbed h = absorbed h' \/ collision_in perm (calls h) (calls h').
Proof.
  intros S E E' Es Ep. rewrite run_eq in E, E' by apply new_wf.
  assert (D : erun (flat h) tr_new = (cs, t)) by congruence. assert (D' : erun (flat h') tr_new = (cs', t')) by congruence.
  destruct (erun_bind (flat h) (flat h') tr_new tr_new (kind_flat h h' S) new_wf new_wf ltac:(split; reflexivity)) as [(Q & _)|C].
  - rewrite D, D'. exact Es.
  - rewrite D, D'. exact Ep.
  - left. rewrite !data_flat in Q. exact Q.
  - right. exact C.
Qed.

(* after data has been absorbed the four next challenges are the state *)
Definition fresh (t : transcript) : Prop :=
  tr_out t = [] \/ (tr_pending t = [] /\ length (tr_out t) = 12 /\ firstn 4 (tr_out t) = tr_state t).

Lemma add_fresh t e : fresh (addp t e).
Proof.
  unfold addp. cbn [tr_pending]. destruct (_ =? 8); [right|left; reflexivity].
  unfold upd. cbn [tr_pending tr_out tr_state]. rewrite perm_len. auto.
Qed.

Lemma put_fresh l : forall t, l <> [] -> fresh (snd (erun (map A l) t)).
Proof.
  induction l as [|e l IH]; intros t H; [congruence|]. cbn [map erun].
  destruct l as [|e' l]; [cbn [map erun snd]; apply add_fresh|]. apply IH. discriminate.
Qed.

Lemma four_gets t : fresh t -> exists v, fst (erun [G; G; G; G] t) = v /\ v = tr_state (snd (erun [G; G; G; G] t)) /\
  tr_pending (snd (erun [G; G; G; G] t)) = [].
Proof.
  intros F. set (t1 := match tr_out t with [] => upd t | _ => t end).
  assert (H : length (tr_out t1) = 12 /\ firstn 4 (tr_out t1) = tr_state t1 /\ tr_pending t1 = []).
  { unfold t1. destruct F as [F|(F1 & F2 & F3)].
    - rewrite F. unfold upd. cbn [tr_pending tr_out tr_state]. rewrite perm_len. auto.
    - destruct (tr_out t) as [|x o] eqn:E; [discriminate F2|]. rewrite E. auto. }
  destruct H as (L & Hf & Hp). eexists. split; [reflexivity|].
  destruct t1 as [st pe o] eqn:Et. cbn [tr_out tr_state tr_pending] in *.
  assert (EG : getp t = (hd f0 o, mkTr st pe (tl o))).
  { unfold getp. fold t1. rewrite Et. reflexivity. }
  do 12 (destruct o as [|? o]; [discriminate L|]). destruct o; [|discriminate L].
  cbn [erun fst snd]. rewrite EG. cbn [hd tl fst snd getp tr_out tr_state tr_pending]. cbn [firstn] in Hf.
  split; [exact Hf|exact Hp].
Qed.

Lemma absorb_last h es : flat (h ++ [EPut es]) = flat h ++ map A (concat es).
Proof. unfold flat. rewrite map_app, concat_app. cbn [map concat flat1]. rewrite app_nil_r. reflexivity. Qed.

Theorem challenges_bind h h' es es' cs cs' ds t t' :
  same_shape (h ++ [EPut es]) (h' ++ [EPut es']) -> length h = length h' -> concat es <> [] ->
  length ds = 4 ->
  run (h ++ [EPut es; EGet; EGet; EGet; EGet]) tr_new = Ok (cs ++ ds, t) ->
  run (h' ++ [EPut es'; EGet; EGet; EGet; EGet]) tr_new = Ok (cs' ++ ds, t') ->
  absorbed (h ++ [EPut es]) = absorbed (h' ++ [EPut es']) \/
  collision_in perm (calls (h ++ [EPut es; EGet; EGet; EGet; EGet])) (calls (h' ++ [EPut es'; EGet; EGet; EGet; EGet])).
Proof.
  intros S HL HN HD E E'.
  assert (HN' : concat es' <> []).
  { apply Forall2_app_inv_l in S. destruct S as (a & b & Sa & Sb & Eab).
    inversion Sb as [|? y ? z K Z]; subst. inversion Z; subst.
    apply app_inj_tail in Eab. destruct Eab as [_ <-].
    intros Q. rewrite Q in K. destruct (concat es); [congruence|discriminate K]. }
  assert (X : forall h es cs t, concat es <> [] -> run (h ++ [EPut es; EGet; EGet; EGet; EGet]) tr_new = Ok (cs ++ ds, t) ->
    tr_state t = ds /\ tr_pending t = []).
  { clear - HD perm_len. intros h es cs t HN E. rewrite run_eq in E by apply new_wf.
    assert (D : erun (flat (h ++ [EPut es; EGet; EGet; EGet; EGet])) tr_new = (cs ++ ds, t)) by congruence.
    replace (flat (h ++ [EPut es; EGet; EGet; EGet; EGet])) with (flat (h ++ [EPut es]) ++ [G; G; G; G]) in D.
    2:{ unfold flat. rewrite !map_app, !concat_app. cbn [map concat flat1 app]. rewrite <- !app_assoc. reflexivity. }
    rewrite erun_app in D. rewrite absorb_last, erun_app in D. cbn [fst snd] in D.
    destruct (four_gets (snd (erun (map A (concat es)) (snd (erun (flat h) tr_new)))) (put_fresh _ _ HN)) as (v & Q1 & Q2 & Q3).
    assert (D1 : fst (cs ++ ds, t) = cs ++ ds) by reflexivity. rewrite <- D in D1. cbn [fst] in D1. rewrite Q1 in D1.
    assert (D2 : snd (cs ++ ds, t) = t) by reflexivity. rewrite <- D in D2. cbn [snd] in D2.
    assert (Lv : length v = 4).
    { rewrite <- Q1. cbn [erun fst]. reflexivity. }
    assert (Lp : length (fst (erun (flat h) tr_new) ++ fst (erun (map A (concat es)) (snd (erun (flat h) tr_new)))) = length cs).
    { apply (f_equal (@length _)) in D1. rewrite !app_length in *. lia. }
    destruct (app_eq_len _ _ _ _ Lp D1) as [_ Ev].
    rewrite <- D2. split; [rewrite <- Q2; exact Ev|exact Q3]. }
  destruct (X h es cs t HN E) as [X1 X2]. destruct (X h' es' cs' t' HN' E') as [X3 X4].
  assert (SS : same_shape (h ++ [EPut es; EGet; EGet; EGet; EGet]) (h' ++ [EPut es'; EGet; EGet; EGet; EGet])).
  { change [EPut es; EGet; EGet; EGet; EGet] with ([EPut es] ++ [EGet; EGet; EGet; EGet]).
    change [EPut es'; EGet; EGet; EGet; EGet] with ([EPut es'] ++ [EGet; EGet; EGet; EGet]).
    rewrite !app_assoc. apply Forall2_app; [exact S|]. repeat constructor. }
  destruct (state_binds _ _ _ _ t t' SS E E' ltac:(congruence) ltac:(congruence)) as [Q|C]; [|right; exact C].
  left. unfold absorbed in *. rewrite !map_app, !concat_app in *. cbn [map concat app] in *. exact Q.
Qed.

(* zero padding: a trailing zero is not noticed *)
Theorem padding_ambiguous l : length l <= 6 ->
  run [EPut [l]; EGet] tr_new = run [EPut [l ++ [f0]]; EGet] tr_new.
Proof.
  intros H. rewrite !run_eq by apply new_wf. f_equal. unfold flat. cbn [map concat flat1]. rewrite !app_nil_r.
  assert (K : forall l st p, length p + length l < 8 -> erun (map A l) (mkTr st p []) = ([], mkTr st (p ++ l) [])).
  { clear. induction l as [|e l IH]; intros st p H; cbn [map erun]; [rewrite app_nil_r; reflexivity|].
    unfold addp. cbn [tr_state tr_pending]. rewrite app_length. cbn [length] in *.
    destruct (Nat.eqb_spec (length p + 1) 8); [lia|]. rewrite IH by (rewrite app_length; cbn; lia).
    rewrite <- app_assoc. reflexivity. }
  rewrite !erun_app. unfold tr_new. rewrite !K by (rewrite ?app_length; cbn; lia). cbn [fst snd app].
  assert (EP : pad_to 8 (l ++ [f0]) = pad_to 8 l).
  { unfold pad_to. rewrite app_length. cbn [length]. rewrite <- app_assoc. f_equal.
    replace (8 - length l) with (S (8 - (length l + 1))) by lia. reflexivity. }
  assert (EG : getp (mkTr zero4 (l ++ [f0]) []) = getp (mkTr zero4 l [])).
  { unfold getp, upd. cbn [tr_out tr_pending tr_state]. rewrite EP. reflexivity. }
  cbn [erun fst snd]. rewrite EG. reflexivity.
Qed.

(** ** query positions *)

Section Bits.
Variable w : nat.
Hypothesis w_pos : w <> 0.
Variable fields : list Z.

(* bit number k of the stream, w bits per field element *)
Definition sbit (k : nat) : bool := Z.testbit (nth (k / w) fields 0%Z) (Z.of_nat (k mod w)).

(* the number whose low bits are bits k, k+1, ..., k+n-1 of the stream *)
Fixpoint group (k n : nat) : Z := match n with O => 0%Z | S m => (Z.b2z (sbit k) + 2 * group (S k) m)%Z end.

Lemma group_bound k n : (0 <= group k n < 2 ^ Z.of_nat n)%Z.
Proof.
  revert k. induction n as [|n IH]; intros k; cbn [group]; [cbn; lia|].
  rewrite Nat2Z.inj_succ, Z.pow_succ_r by lia. specialize (IH (S k)).
  assert (0 <= Z.b2z (sbit k) <= 1)%Z by (destruct (sbit k); cbn; lia). lia.
Qed.

Lemma next_pos k : (if (Z.of_nat (k mod w) + 1 =? Z.of_nat w)%Z
  then (S (k / w), 0%Z) else (k / w, (Z.of_nat (k mod w) + 1)%Z)) = (S k / w, Z.of_nat (S k mod w)).
Proof.
  pose proof (Nat.div_mod k w w_pos) as E. pose proof (Nat.mod_upper_bound k w w_pos) as B.
  destruct (Z.eqb_spec (Z.of_nat (k mod w) + 1) (Z.of_nat w)) as [Q|Q].
  - rewrite <- (Nat.div_unique (S k) w (S (k / w)) 0), <- (Nat.mod_unique (S k) w (S (k / w)) 0) by lia. reflexivity.
  - rewrite <- (Nat.div_unique (S k) w (k / w) (S (k mod w))), <- (Nat.mod_unique (S k) w (k / w) (S (k mod w))) by lia.
    f_equal. lia.
Qed.

Lemma group_eq nbits : forall j k a, (Z.of_nat j + Z.of_nat nbits <= 64)%Z ->
  (forall i, i < nbits -> (k + i) / w < length fields) ->
  bit_group (Z.of_nat w) fields nbits (Z.of_nat j) (k / w) (Z.of_nat (k mod w)) a
  = Ok ((a + 2 ^ Z.of_nat j * group k nbits)%Z, (k + nbits) / w, Z.of_nat ((k + nbits) mod w)).
Proof.
  induction nbits as [|m IH]; intros j k a HJ HF; cbn [bit_group group].
  - rewrite Nat.add_0_r, Z.mul_0_r, Z.add_0_r. reflexivity.
  - assert (H0 : k / w < length fields) by (specialize (HF 0 ltac:(lia)); rewrite Nat.add_0_r in HF; exact HF).
    rewrite (vget_some fields (k / w) (nth (k / w) fields 0%Z)) by (apply nth_error_nth_lt; exact H0). cbn [bind].
    assert (E : (if Z.testbit (nth (k / w) fields 0%Z) (Z.of_nat (k mod w))
       then if (Z.of_nat j <? 64)%Z then Ok (a + 2 ^ Z.of_nat j)%Z else Panic else Ok a)
       = Ok (a + 2 ^ Z.of_nat j * Z.b2z (sbit k))%Z).
    { unfold sbit. destruct (Z.testbit _ _); cbn [Z.b2z].
      - destruct (Z.ltb_spec (Z.of_nat j) 64); [|lia]. f_equal. lia.
      - f_equal. lia. }
    rewrite E. cbn [bind]. cbn zeta.
    assert (R : forall T (f : nat -> Z -> T), (if (Z.of_nat (k mod w) + 1 =? Z.of_nat w)%Z then f (S (k / w)) 0%Z
       else f (k / w) (Z.of_nat (k mod w) + 1)%Z) = f (S k / w) (Z.of_nat (S k mod w))).
    { intros T f. pose proof (next_pos k) as NP.
      destruct (Z.of_nat (k mod w) + 1 =? Z.of_nat w)%Z; injection NP as N1 N2; rewrite <- N1, <- N2; reflexivity. }
    rewrite (R _ (fun cf cb => bit_group (Z.of_nat w) fields m (Z.of_nat j + 1)%Z cf cb (a + 2 ^ Z.of_nat j * Z.b2z (sbit k))%Z)).
    replace (Z.of_nat j + 1)%Z with (Z.of_nat (S j)) by lia.
    rewrite IH.
    + rewrite Nat2Z.inj_succ, Z.pow_succ_r by lia. replace (S k + m) with (k + S m) by lia.
      f_equal. f_equal. f_equal. ring.
    + lia.
    + intros i Hi. specialize (HF (S i) ltac:(lia)). replace (S k + i) with (k + S i) by lia. exact HF.
Qed.

Lemma groups_eq b : b <= 64 -> forall n k, (forall i, i < n * b -> (k + i) / w < length fields) ->
  bit_groups (Z.of_nat w) fields b n (k / w) (Z.of_nat (k mod w))
  = Ok (map (fun i => group (k + i * b) b) (seq 0 n)).
Proof.
  intros Hb. induction n as [|n IH]; intros k HF; cbn [bit_groups]; [reflexivity|].
  change 0%Z with (Z.of_nat 0) at 1. rewrite group_eq; [|lia|intros i Hi; apply HF; nia].
  cbn [bind]. rewrite IH.
  - cbn [bind seq map]. rewrite <- seq_shift, map_map. cbn [Z.of_nat]. f_equal. f_equal.
    + rewrite Z.pow_0_r, Z.mul_1_l, Z.add_0_l. rewrite Nat.mul_0_l, Nat.add_0_r. reflexivity.
    + apply map_ext. intros i. f_equal. lia.
  - intros i Hi. rewrite <- Nat.add_assoc. apply HF. nia.
Qed.

Lemma group_bits n : forall k j, j < n -> Z.testbit (group k n) (Z.of_nat j) = sbit (k + j).
Proof.
  induction n as [|n IH]; intros k j H; [lia|]. cbn [group]. rewrite Z.add_comm. destruct j as [|j].
  - rewrite Z.testbit_0_r. rewrite Nat.add_0_r. reflexivity.
  - rewrite Nat2Z.inj_succ, Z.testbit_succ_r by lia. rewrite IH by lia. f_equal. lia.
Qed.
End Bits.

Lemma many_len n : forall t, wf t -> exists vs t', get_many perm n t = Ok (vs, t') /\ length vs = n /\ wf t'.
Proof.
  induction n as [|n IH]; intros t W; cbn [get_many]; [eexists; eexists; split; [reflexivity|]; auto|].
  destruct (get_eq t W) as [E W']. rewrite E. destruct (getp t) as [v t1]. cbn [bind snd] in *.
  destruct (IH t1 W') as (vs & t' & E2 & L & W2). rewrite E2. cbn [bind].
  exists (v :: vs), t'. split; [reflexivity|]. cbn [length]. auto.
Qed.

Theorem permutations t n b : wf t -> 0 < n * b -> b <= 64 ->
  exists fields t' r,
    get_many perm ((n * b - 1) / 63 + 1) t = Ok (fields, t') /\
    get_permutations perm t n b = Ok (r, t') /\ length r = n /\
    forall i, i < n ->
      (0 <= nth i r 0 < 2 ^ Z.of_nat b)%Z /\
      forall j, j < b -> Z.testbit (nth i r 0%Z) (Z.of_nat j) =
        Z.testbit (fint (nth ((i * b + j) / 63) fields f0)) (Z.of_nat ((i * b + j) mod 63)).
Proof.
  intros W H0 Hb. destruct (many_len ((n * b - 1) / 63 + 1) t W) as (fields & t' & E & L & _).
  assert (K63 : 63 <> 0) by discriminate.
  exists fields, t', (map (fun i => group 63 (map fint fields) (0 + i * b) b) (seq 0 n)).
  assert (HB : forall i, i < n * b -> (0 + i) / 63 < length (map fint fields)).
  { intros i Hi. rewrite map_length, L. cbn [Nat.add].
    assert (i / 63 <= (n * b - 1) / 63) by (apply Nat.div_le_mono; lia). lia. }
  split; [exact E|]. split; [|split].
  - unfold get_permutations. destruct (Nat.eqb_spec (n * b) 0); [lia|]. rewrite E. cbn [bind].
    pose proof (groups_eq 63 K63 (map fint fields) b Hb n 0 HB) as EG.
    rewrite Nat.div_0_l, Nat.mod_0_l in EG by exact K63.
    change (Z.of_nat 63) with 63%Z in EG. change (Z.of_nat 0) with 0%Z in EG. rewrite EG. reflexivity.
  - rewrite map_length, seq_length. reflexivity.
  - intros i Hi.
    assert (EN : nth i (map (fun i => group 63 (map fint fields) (0 + i * b) b) (seq 0 n)) 0%Z = group 63 (map fint fields) (i * b) b).
    { assert (Q : nth_error (map (fun i => group 63 (map fint fields) (0 + i * b) b) (seq 0 n)) i = Some (group 63 (map fint fields) (i * b) b)).
      { rewrite nth_error_map, (nth_error_nth_lt _ _ 0) by (rewrite seq_length; exact Hi). rewrite seq_nth by exact Hi. reflexivity. }
      apply nth_error_nth. exact Q. }
    rewrite EN. split; [apply group_bound; exact K63|]. intros j Hj. rewrite group_bits by assumption. unfold sbit.
    f_equal. specialize (HB (i * b + j) ltac:(nia)). cbn [Nat.add] in HB. rewrite map_length in HB.
    rewrite (nth_indep _ 0%Z (fint f0)) by (rewrite map_length; exact HB). apply map_nth.
Qed.

Theorem permutations_empty t n b : n * b = 0 -> get_permutations perm t n b = Panic.
Proof. intros H. unfold get_permutations. rewrite H. reflexivity. Qed.

End Hash.
