(* Writing a proof and reading it back. *)
From Coq Require Import String Ascii.
From Verif Require Import Base ListAux GlModel FrField F3gModel F3gProof HashModel BnModel SerModel SerProof JoinProof.
Open Scope Z_scope.
Open Scope res_scope.

(** ** names *)
Lemma key_shape i suf : (1 <= i)%nat -> exists c r, key_s i suf = 115 :: c :: r /\ 48 < c <= 57.
Proof.
  intros H. unfold key_s. destruct (dec_spec (Z.of_nat i) ltac:(lia)) as [D [_ [Hp _]]].
  destruct (Hp ltac:(lia)) as [c [r [E Hc]]]. rewrite E in *. inversion D; subst. unfold isdig in *.
  exists c, (r ++ str suf). split; [reflexivity|lia].
Qed.
Lemma split_digits a : forall b x y, Forall isdig a -> Forall isdig b -> a ++ 95 :: x = b ++ 95 :: y -> a = b /\ x = y.
Proof.
  induction a as [|c a IH]; intros [|d b] x y Da Db E; cbn [app] in E.
  - injection E as ->. auto.
  - injection E as E1 _. inversion Db; subst. unfold isdig in *. lia.
  - injection E as E1 _. inversion Da; subst. unfold isdig in *. lia.
  - injection E as E1 E2. inversion Da; inversion Db; subst. destruct (IH b x y) as [-> ->]; auto.
Qed.
Lemma key_inj i j a b : key_s i (String "_" a) = key_s j (String "_" b) -> i = j /\ str a = str b.
Proof.
  unfold key_s. intros E. cbn [str] in E. unfold str in E. cbn [list_ascii_of_string map app] in E.
  apply (f_equal (@tl Z)) in E. cbn [tl] in E.
  destruct (dec_spec (Z.of_nat i) ltac:(lia)) as [Di _]. destruct (dec_spec (Z.of_nat j) ltac:(lia)) as [Dj _].
  change (Z.of_nat (nat_of_ascii "_")) with 95 in E.
  apply split_digits in E; [|assumption|assumption]. destruct E as [E1 E2]. apply dec_inj in E1; [|lia|lia].
  split; [lia|exact E2].
Qed.
(* a name that is not one of the generated ones *)
Definition plain (key : text) : Prop := forall i suf, (1 <= i)%nat -> text_eqb (key_s i suf) key = false /\ text_eqb key (key_s i suf) = false.
Lemma plain_head c r : c <> 115 -> plain (c :: r).
Proof.
  intros H i suf Hi. destruct (key_shape i suf Hi) as [d [t [-> _]]]. cbn [text_eqb].
  rewrite (proj2 (Z.eqb_neq 115 c)) by congruence. rewrite (proj2 (Z.eqb_neq c 115)) by congruence. auto.
Qed.
Lemma plain_s0 r : plain (115 :: 48 :: r).
Proof.
  intros i suf Hi. destruct (key_shape i suf Hi) as [d [t [-> Hd]]]. cbn [text_eqb].
  rewrite (proj2 (Z.eqb_neq d 48)) by lia. rewrite (proj2 (Z.eqb_neq 48 d)) by lia. cbn [andb]. rewrite !andb_false_r. auto.
Qed.
Ltac plain := first [apply plain_s0 | apply plain_head; discriminate].

Lemma jget_app a b key : jget (a ++ b) key = match jget b key with Some x => Some x | None => jget a key end.
Proof.
  induction a as [|[n v] a IH]; cbn [app jget]; [destruct (jget b key); reflexivity|]. rewrite IH. destruct (jget b key); reflexivity.
Qed.
Lemma jget_none m key : Forall (fun e => text_eqb (fst e) key = false) m -> jget m key = None.
Proof. induction 1 as [|[n v] m H _ IH]; [reflexivity|]. cbn [jget fst] in *. rewrite IH, H. reflexivity. Qed.

Definition triple (i : nat) (t : json * json * json) : list (text * json) :=
  [(key_s i "_root", fst (fst t)); (key_s i "_vals", snd (fst t)); (key_s i "_siblings", snd t)].
Definition triples (l : list (nat * (json * json * json))) : list (text * json) := concat (map (fun e => triple (fst e) (snd e)) l).

Lemma triple_other i j t suf : i <> j -> jget (triple i t) (key_s j (String "_" suf)) = None.
Proof.
  intros N. apply jget_none. unfold triple.
  repeat apply Forall_cons; try apply Forall_nil; cbn [fst]; apply text_eqb_neq; intros E; apply key_inj in E; destruct E; congruence.
Qed.
Lemma triple_root i t : jget (triple i t) (key_s i "_root") = Some (fst (fst t)).
Proof.
  unfold triple. cbn [jget]. rewrite (text_eqb_neq (key_s i "_siblings")) by (intros E; apply key_inj in E; destruct E as [_ E]; discriminate E).
  rewrite (text_eqb_neq (key_s i "_vals")) by (intros E; apply key_inj in E; destruct E as [_ E]; discriminate E). rewrite text_eqb_refl. reflexivity.
Qed.
Lemma triple_vals i t : jget (triple i t) (key_s i "_vals") = Some (snd (fst t)).
Proof.
  unfold triple. cbn [jget]. rewrite (text_eqb_neq (key_s i "_siblings")) by (intros E; apply key_inj in E; destruct E as [_ E]; discriminate E).
  rewrite text_eqb_refl. reflexivity.
Qed.
Lemma triple_sibs i t : jget (triple i t) (key_s i "_siblings") = Some (snd t).
Proof. unfold triple. cbn [jget]. rewrite text_eqb_refl. reflexivity. Qed.

Lemma triples_none l j suf : ~ In j (map fst l) -> jget (triples l) (key_s j (String "_" suf)) = None.
Proof.
  induction l as [|[i t] l IH]; intros N; [reflexivity|]. unfold triples in *. cbn [map concat fst snd In] in *.
  rewrite jget_app, IH by tauto. apply triple_other. intros ->. apply N. left. reflexivity.
Qed.
Lemma triples_get l j t : NoDup (map fst l) -> In (j, t) l ->
  jget (triples l) (key_s j "_root") = Some (fst (fst t)) /\ jget (triples l) (key_s j "_vals") = Some (snd (fst t)) /\
  jget (triples l) (key_s j "_siblings") = Some (snd t).
Proof.
  induction l as [|[i u] l IH]; intros N I; [destruct I|]. cbn [map fst] in N. inversion N; subst.
  change (triples ((i, u) :: l)) with (triple i u ++ triples l). rewrite !jget_app. destruct I as [[= -> ->]|I].
  - rewrite !triples_none by assumption. rewrite triple_root, triple_vals, triple_sibs. auto.
  - destruct (IH ltac:(assumption) I) as [-> [-> ->]]. auto.
Qed.
Lemma triples_plain l key : plain key -> Forall (fun e => (1 <= fst e)%nat) l -> jget (triples l) key = None.
Proof.
  intros Pl F. induction F as [|[i t] l H _ IH]; [reflexivity|]. change (triples ((i, t) :: l)) with (triple i t ++ triples l).
  rewrite jget_app, IH. apply jget_none. unfold triple. cbn [fst] in *.
  repeat apply Forall_cons; try apply Forall_nil; cbn [fst]; apply Pl; exact H.
Qed.

(** ** lists *)
Lemma mapM_both {A J B} (ser : A -> res J) (de : J -> res B) (R : A -> B -> Prop) l :
  (forall x, In x l -> exists j y, ser x = Ok j /\ de j = Ok y /\ R x y) ->
  exists js ys, mapM ser l = Ok js /\ mapM de js = Ok ys /\ Forall2 R l ys.
Proof.
  induction l as [|x l IH]; intros H; [exists [], []; repeat split; constructor|].
  destruct (H x (or_introl eq_refl)) as [j [y [E1 [E2 E3]]]].
  destruct IH as [js [ys [F1 [F2 F3]]]]; [intros z Hz; apply H; right; exact Hz|].
  exists (j :: js), (y :: ys). cbn [mapM]. rewrite E1, E2. cbn [bind]. rewrite F1, F2. repeat split. constructor; assumption.
Qed.
Lemma mapM_seq_get {A B} (f : A -> res B) (l : list A) : forall pre,
  mapM (fun i => do x <- vget (pre ++ l) i; f x) (seq (length pre) (length l)) = mapM f l.
Proof.
  induction l as [|a l IH]; intros pre; [reflexivity|]. cbn [length seq mapM]. rewrite vget_app. cbn [bind].
  specialize (IH (pre ++ [a])). rewrite <- app_assoc in IH. cbn [app] in IH. rewrite app_length, Nat.add_1_r in IH.
  rewrite IH. reflexivity.
Qed.
Lemma Forall2_map_eq {A B} (g : B -> A) l ys : Forall2 (fun x y => g y = x) l ys -> map g ys = l.
Proof. induction 1 as [|x y l ys E _ IH]; [reflexivity|]. cbn [map]. rewrite E, IH. reflexivity. Qed.

Lemma Forall2_nth {A B} (R : A -> B -> Prop) l m : Forall2 R l m -> forall i x y, nth_error l i = Some x -> nth_error m i = Some y -> R x y.
Proof.
  induction 1 as [|a b l m H _ IH]; intros i x y Hx Hy; [destruct i; discriminate Hx|]. destruct i as [|i]; cbn [nth_error] in *.
  - congruence.
  - apply (IH i); assumption.
Qed.

Lemma de_f3gs l : Forall wf l -> de_vec de_f3g (JArr (map ser_f3g l)) = Ok l.
Proof.
  intros F. cbn [de_vec]. induction F as [|a l W _ IH]; [reflexivity|]. cbn [map mapM]. rewrite f3g_roundtrip by exact W.
  cbn [bind]. rewrite IH. reflexivity.
Qed.
Lemma wf_from x : wf (e_from x). Proof. intros _. split; reflexivity. Qed.
Lemma de_row v : de_vec de_f3g (ser_vals v) = Ok (map e_from v).
Proof.
  unfold ser_vals. rewrite <- (map_map e_from ser_f3g). apply de_f3gs. apply Forall_forall. intros x Hx.
  apply in_map_iff in Hx. destruct Hx as [y [<- _]]. apply wf_from.
Qed.
Lemma c0_from v : map c0 (map e_from v) = v.
Proof. rewrite map_map. cbn. apply map_id. Qed.
Lemma de_vals_ser l : de_vals (JArr (map ser_vals l)) = Ok l.
Proof.
  unfold de_vals. cbn [de_vec]. rewrite (mapM_ok _ (fun j => match de_vec de_f3g j with Ok x => x | _ => [] end)).
  - rewrite map_map. unfold rmap. cbn [bind]. f_equal. rewrite map_map. rewrite <- (map_id l) at 2. apply map_ext. intros v. rewrite de_row. apply c0_from.
  - intros j Hj. apply in_map_iff in Hj. destruct Hj as [v [<- _]]. rewrite de_row. reflexivity.
Qed.
Lemma nth_map_seq {A} (d : A) l : map (fun i => nth i l d) (seq 0 (length l)) = l.
Proof.
  apply nth_error_ext_len; [rewrite map_length, seq_length; reflexivity|]. intros i Hi. rewrite map_length, seq_length in Hi.
  rewrite nth_error_map. rewrite (nth_error_nth' _ 0%nat) by (rewrite seq_length; exact Hi). rewrite seq_nth by exact Hi. cbn [option_map].
  symmetry. apply nth_error_nth_lt. exact Hi.
Qed.
Lemma max_seq (f : nat -> bool) n : forall K, (forall i, (1 <= i)%nat -> f i = (i <=? n)%nat) ->
  fold_left Nat.max (map (fun i => if f i then i else O) (seq 1 K)) O = Nat.min n K.
Proof.
  intros K H. induction K as [|K IH]; [rewrite Nat.min_0_r; reflexivity|]. rewrite seq_S, map_app, fold_left_app, IH.
  cbn [map fold_left]. rewrite H by lia. replace (1 + K)%nat with (S K) by lia. destruct (Nat.leb_spec (S K) n); lia.
Qed.

Section Proof.
Variable MB : Type.
Variable to_bf : digest -> MB.
Variable of_bf : MB -> res digest.
Variable k : kind.

(* an element of the base field that is the content of some node *)
Definition bf_ok (e : MB) : Prop := exists d, of_bf e = Ok d /\ canonical k d /\ to_bf d = e.
Definition cell_ok (e : list Fr * list (list MB)) : Prop := Forall (Forall bf_ok) (snd e).

Lemma sibs_back s : Forall (Forall bf_ok) s -> exists j ds, ser_sibs MB of_bf k s = Ok j /\
  de_vec (de_vec (de_digest k)) j = Ok ds /\ nodes_to_bf MB to_bf ds = s.
Proof.
  intros F. unfold ser_sibs.
  destruct (mapM_both (fun e => rmap JArr (mapM (fun ee => rmap (ser_digest k) (of_bf ee)) e)) (de_vec (de_digest k))
              (fun e ds => map to_bf ds = e) s) as [js [ys [E1 [E2 E3]]]].
  - intros e He. rewrite Forall_forall in F. specialize (F e He).
    destruct (mapM_both (fun ee => rmap (ser_digest k) (of_bf ee)) (de_digest k) (fun ee d => to_bf d = ee) e) as [js [ys [E1 [E2 E3]]]].
    + intros ee Hee. rewrite Forall_forall in F. destruct (F ee Hee) as [d [Ed [C Et]]].
      exists (ser_digest k d), d. rewrite Ed. split; [reflexivity|]. split; [apply digest_roundtrip; exact C|exact Et].
    + exists (JArr js), ys. rewrite E1. split; [reflexivity|]. split; [exact E2|]. apply Forall2_map_eq. exact E3.
  - exists (JArr js), ys. rewrite E1. split; [reflexivity|]. split; [exact E2|]. unfold nodes_to_bf. apply Forall2_map_eq. exact E3.
Qed.

Definition cell (c : nat) (qe : list (list Fr * list (list MB))) : list Fr * list (list MB) := nth c qe ([], []).
Definition has_cell (c : nat) (qe : list (list Fr * list (list MB))) : Prop := (c < length qe)%nat /\ cell_ok (cell c qe).

Lemma col_back c (q : query MB) : Forall (has_cell c) (pol_queries MB q) ->
  exists jv js dss, ser_col MB of_bf k (length (pol_queries MB q)) c q = Ok (jv, js) /\
    de_vals jv = Ok (map (fun qe => fst (cell c qe)) (pol_queries MB q)) /\ de_sibs k js = Ok dss /\
    map (nodes_to_bf MB to_bf) dss = map (fun qe => snd (cell c qe)) (pol_queries MB q).
Proof.
  destruct q as [pq root]. cbn [pol_queries]. intros F. unfold ser_col. cbn [pol_queries].
  pose proof (mapM_seq_get (fun qe => do e <- vget qe c; do s <- ser_sibs MB of_bf k (snd e); Ok (ser_vals (fst e), s)) pq []) as X.
  cbn [app List.length] in X. rewrite X. clear X.
  destruct (mapM_both (fun qe => do e <- vget qe c; do s <- ser_sibs MB of_bf k (snd e); Ok (ser_vals (fst e), s))
     (fun p => de_vec (de_vec (de_digest k)) (snd p)) (fun qe ds => nodes_to_bf MB to_bf ds = snd (cell c qe)) pq) as [ps [ys [E1 [E2 E3]]]].
  { intros qe H. rewrite Forall_forall in F. destruct (F qe H) as [L C]. destruct (sibs_back _ C) as [j [ds [S1 [S2 S3]]]].
    exists (ser_vals (fst (cell c qe)), j), ds. rewrite (vget_some _ c (cell c qe)) by (apply nth_error_nth_lt; exact L). cbn [bind].
    rewrite S1. cbn [bind]. split; [reflexivity|]. split; [exact S2|exact S3]. }
  assert (V : map fst ps = map ser_vals (map (fun qe => fst (cell c qe)) pq)).
  { clear E2 E3. revert ps E1. induction F as [|qe pq [L C] F IH]; intros ps E1; cbn [mapM] in E1; [injection E1 as <-; reflexivity|].
    rewrite (vget_some _ c (cell c qe)) in E1 by (apply nth_error_nth_lt; exact L). cbn [bind] in E1.
    destruct (sibs_back _ C) as [j [ds [S1 _]]]. rewrite S1 in E1. cbn [bind] in E1.
    destruct (mapM _ pq) as [ps'| | |]; cbn [bind] in E1; try discriminate E1. injection E1 as <-. cbn [map fst]. rewrite (IH ps' eq_refl). reflexivity. }
  rewrite E1. cbn [bind]. exists (JArr (map fst ps)), (JArr (map snd ps)), ys. split; [reflexivity|].
  split; [rewrite V; apply de_vals_ser|]. split.
  - unfold de_sibs. cbn [de_vec]. clear - E2. revert ys E2. induction ps as [|p ps IH]; intros ys E2; [exact E2|]. cbn [map mapM] in *.
    destruct (de_vec (de_vec (de_digest k)) (snd p)); cbn [bind] in *; try discriminate E2.
    destruct (mapM (fun p => de_vec (de_vec (de_digest k)) (snd p)) ps) as [ys'| | |]; cbn [bind] in *; try discriminate E2.
    rewrite (IH ys' eq_refl). exact E2.
  - clear - E3. induction E3 as [|qe ds pq ys H _ IH]; [reflexivity|]. cbn [map]. rewrite H, IH. reflexivity.
Qed.

(* a tree read back gives the rows it was made of *)
Lemma row_back c pq vals dss i : vals = map (fun qe => fst (cell c qe)) pq ->
  map (nodes_to_bf MB to_bf) dss = map (fun qe => snd (cell c qe)) pq -> (i < length pq)%nat ->
  row_of MB to_bf (vals, dss) i = Ok (cell c (nth i pq [])).
Proof.
  intros -> E Hi. unfold row_of. cbn [fst snd].
  assert (L : length dss = length pq) by (rewrite <- (map_length (nodes_to_bf MB to_bf) dss), E; apply map_length).
  rewrite (vget_some dss i (nth i dss [])) by (apply nth_error_nth_lt; lia). cbn [bind].
  rewrite (vget_some _ i (fst (cell c (nth i pq [])))).
  2:{ rewrite nth_error_map. rewrite (nth_error_nth_lt pq i []) by exact Hi. reflexivity. }
  cbn [bind]. assert (E2 : nodes_to_bf MB to_bf (nth i dss []) = snd (cell c (nth i pq []))).
  { pose proof (f_equal (fun l => nth_error l i) E) as G. cbn beta in G. rewrite !nth_error_map in G.
    rewrite (nth_error_nth_lt dss i []), (nth_error_nth_lt pq i []) in G by lia. cbn [option_map] in G. congruence. }
  rewrite E2. destruct (cell c (nth i pq [])). reflexivity.
Qed.
Lemma fill_id nq t : length (fst t) = nq -> fill nq t = t.
Proof. intros H. unfold fill. rewrite (proj2 (Nat.ltb_ge _ _)) by lia. reflexivity. Qed.

(* a proof that the code can print and read back: a first step with five openings in each query, further
   steps with one opening in each query, as many queries in every step, printable nodes *)
Definition query0_ok (q : query MB) : Prop :=
  q_root MB q = zero4 /\ Forall (fun qe => length qe = 5%nat /\ Forall cell_ok qe) (pol_queries MB q).
Definition query_ok (nq : nat) (q : query MB) : Prop :=
  canonical k (q_root MB q) /\ length (pol_queries MB q) = nq /\
  Forall (fun qe => length qe = 1%nat /\ Forall cell_ok qe) (pol_queries MB q).
Definition proof_ok (p : proof MB) : Prop :=
  canonical k (root1 MB p) /\ canonical k (root2 MB p) /\ canonical k (root3 MB p) /\ canonical k (root4 MB p) /\
  match rootC MB p with Some r => canonical k r | None => True end /\
  Forall wf (last_pol MB p) /\ Forall wf (evals MB p) /\ Forall wf (publics MB p) /\
  exists q0 qs, queries MB p = q0 :: qs /\ query0_ok q0 /\ Forall (query_ok (length (pol_queries MB q0))) qs.

Lemma has_cell_of n qe c : length qe = n -> Forall cell_ok qe -> (c < n)%nat -> has_cell c qe.
Proof. intros L F H. split; [lia|]. rewrite Forall_forall in F. apply F. apply nth_In. lia. Qed.
Lemma cells n pq c : Forall (fun qe => length qe = n /\ Forall cell_ok qe) pq -> (c < n)%nat -> Forall (has_cell c) pq.
Proof. intros F H. eapply Forall_impl; [|exact F]. cbn. intros qe [L G]. apply (has_cell_of n); assumption. Qed.

(* what reading the entries of step i needs *)
Definition step_back (nq i : nat) (q : query MB) (t : json * json * json) : Prop :=
  fst (fst t) = ser_digest k (q_root MB q) /\
  exists dss, de_vals (snd (fst t)) = Ok (map (fun qe => fst (cell 0 qe)) (pol_queries MB q)) /\ de_sibs k (snd t) = Ok dss /\
    map (nodes_to_bf MB to_bf) dss = map (fun qe => snd (cell 0 qe)) (pol_queries MB q).

Lemma steps_back nq qs : Forall (query_ok nq) qs -> forall pre, exists l,
  mapM (ser_step MB of_bf k nq (pre ++ qs)) (seq (length pre) (length qs)) = Ok (map (fun e => triple (fst e) (snd e)) l) /\
  map fst l = seq (length pre) (length qs) /\ Forall2 (fun q e => step_back nq (fst e) q (snd e)) qs l.
Proof.
  induction 1 as [|q qs H F IH]; intros pre; [exists []; repeat split; constructor|].
  destruct (IH (pre ++ [q])) as [l [E1 [E2 E3]]]. rewrite <- app_assoc in E1. cbn [app] in E1. rewrite app_length, Nat.add_1_r in E1, E2.
  destruct H as [C [L G]]. destruct (col_back 0 q) as [jv [js [dss [S1 [S2 [S3 S4]]]]]]; [apply (cells 1); [exact G|lia]|].
  exists ((length pre, ((ser_digest k (q_root MB q), jv), js)) :: l). cbn [length seq mapM map fst snd]. unfold ser_step at 1. rewrite vget_app. cbn [bind].
  rewrite <- L, S1. cbn [bind fst snd]. rewrite L, E1. cbn [bind]. split; [reflexivity|]. split; [rewrite E2; reflexivity|].
  constructor; [|exact E3]. split; [reflexivity|]. exists dss. cbn [fst snd]. auto.
Qed.

Definition result (p : proof MB) : proof MB :=
  mkP MB (root1 MB p) (root2 MB p) (root3 MB p) (root4 MB p) (firstn 32 (queries MB p)) (last_pol MB p) (evals MB p) (publics MB p)
    (rootC MB p) (match k with GL => [] | _ => prover_addr MB p end).

Lemma field_ok {A} m key j (de : json -> res A) a : jget m key = Some j -> de j = Ok a -> field m key de = Ok a.
Proof. intros H E. unfold field, jneed. rewrite H. cbn [bind]. rewrite E. reflexivity. Qed.

Lemma single_cells pq : Forall (fun qe => length qe = 1%nat /\ Forall cell_ok qe) pq -> forall i, (i < length pq)%nat ->
  [cell 0 (nth i pq [])] = nth i pq [].
Proof.
  intros F i Hi. rewrite Forall_forall in F. destruct (F (nth i pq []) ltac:(apply nth_In; exact Hi)) as [L _].
  destruct (nth i pq []) as [|e [|? ?]]; try discriminate L. reflexivity.
Qed.
Lemma five_cells pq : Forall (fun qe => length qe = 5%nat /\ Forall cell_ok qe) pq -> forall i, (i < length pq)%nat ->
  map (fun c => cell c (nth i pq [])) [0; 1; 2; 3; 4]%nat = nth i pq [].
Proof.
  intros F i Hi. rewrite Forall_forall in F. destruct (F (nth i pq []) ltac:(apply nth_In; exact Hi)) as [L _].
  destruct (nth i pq []) as [|a [|b [|c [|d [|e [|? ?]]]]]]; try discriminate L. reflexivity.
Qed.

Lemma de_step_ok m nq i q t : query_ok nq q -> step_back nq i q t ->
  jget m (key_s i "_root") = Some (fst (fst t)) -> jget m (key_s i "_vals") = Some (snd (fst t)) ->
  jget m (key_s i "_siblings") = Some (snd t) -> de_step MB to_bf k m nq i = Ok q.
Proof.
  intros [C [L G]] [R [dss [S1 [S2 S3]]]] H1 H2 H3. unfold de_step.
  rewrite (field_ok m _ _ (de_digest k) (q_root MB q) H1) by (rewrite R; apply digest_roundtrip; exact C). cbn [bind].
  rewrite (field_ok m _ _ de_vals _ H2 S1). cbn [bind]. rewrite (field_ok m _ _ (de_sibs k) _ H3 S2). cbn [bind].
  rewrite (mapM_ok _ (fun j => nth j (pol_queries MB q) [])).
  - cbn [bind]. rewrite <- L, nth_map_seq. destruct q. reflexivity.
  - intros j Hj. apply in_seq in Hj. rewrite (row_back 0 (pol_queries MB q)) by (auto; lia). cbn [bind].
    rewrite single_cells by (auto; lia). reflexivity.
Qed.

(* one of the five trees of the first step, whether its entry is there or not *)
Lemma de_s0_ok m j pq c jv js dss : de_vals jv = Ok (map (fun qe => fst (cell c qe)) pq) -> de_sibs k js = Ok dss ->
  map (nodes_to_bf MB to_bf) dss = map (fun qe => snd (cell c qe)) pq ->
  jget m (str "s0_vals" ++ str j) = Some jv /\ jget m (str "s0_siblings" ++ str j) = Some js \/
  jget m (str "s0_vals" ++ str j) = None /\ pq = [] ->
  de_s0 k m j = Ok (map (fun qe => fst (cell c qe)) pq, dss).
Proof.
  intros S1 S2 S3 [[H1 H2]|[H1 ->]]; unfold de_s0; rewrite H1.
  - rewrite S1. cbn [unwrap bind]. rewrite (field_ok m _ _ (de_sibs k) _ H2 S2). reflexivity.
  - cbn [map] in S3 |- *. destruct dss; [reflexivity|discriminate S3].
Qed.

Theorem proof_back p : proof_ok p -> exists j, ser_proof MB of_bf k p = Ok j /\ de_proof MB to_bf k j = Ok (result p).
Proof.
  intros [C1 [C2 [C3 [C4 [CC [W1 [W2 [W3 [q0 [qs [EQ [Q0 QS]]]]]]]]]]]]. unfold ser_proof. rewrite EQ. change (vget (q0 :: qs) 0) with (Ok q0). cbn [bind].
  destruct Q0 as [R0 F0]. set (nq := length (pol_queries MB q0)) in *.
  destruct (steps_back nq qs QS [q0]) as [l [E1 [E2 E3]]]. cbn [app length] in E1, E2.
  replace (length (q0 :: qs) - 1)%nat with (length qs) by (cbn [length]; lia). rewrite E1. cbn [bind].
  destruct (col_back 0 q0 ltac:(apply (cells 5); [exact F0|lia])) as [v1 [s1 [d1 [A1 [A2 [A3 A4]]]]]].
  destruct (col_back 1 q0 ltac:(apply (cells 5); [exact F0|lia])) as [v2 [s2 [d2 [B1 [B2 [B3 B4]]]]]].
  destruct (col_back 2 q0 ltac:(apply (cells 5); [exact F0|lia])) as [v3 [s3 [d3' [D1 [D2 [D3 D4]]]]]].
  destruct (col_back 3 q0 ltac:(apply (cells 5); [exact F0|lia])) as [v4 [s4 [d4 [G1 [G2 [G3 G4]]]]]].
  destruct (col_back 4 q0 ltac:(apply (cells 5); [exact F0|lia])) as [v5 [s5 [d5 [H1 [H2 [H3 H4]]]]]].
  fold nq in A1, B1, D1, G1, H1. rewrite A1, B1, D1, G1, H1. cbn [bind fst snd].
  match goal with |- context [JObj (?A ++ ?B ++ concat (map _ l) ++ ?D)] => set (headC := A); set (head := B); set (tail := D) end.
  change (concat (map (fun e => triple (fst e) (snd e)) l)) with (triples l).
  set (m := headC ++ head ++ triples l ++ tail).
  exists (JObj m). split; [reflexivity|].
  assert (Lpos : Forall (fun e => (1 <= fst e)%nat) l).
  { apply Forall_forall. intros e He. apply (in_map fst) in He. rewrite E2 in He. apply in_seq in He. lia. }
  assert (Lnd : NoDup (map fst l)) by (rewrite E2; apply seq_NoDup).
  (* lookups *)
  assert (M : forall key, plain key -> jget m key = match jget tail key with Some x => Some x | None => match jget head key with Some x => Some x | None => jget headC key end end).
  { intros key Pl. unfold m. rewrite !jget_app. rewrite (triples_plain l key Pl Lpos). destruct (jget tail key); reflexivity. }
  assert (T : forall i suf, (1 <= i)%nat -> jget m (key_s i (String "_" suf)) = jget (triples l) (key_s i (String "_" suf))).
  { intros i suf Hi. unfold m. rewrite !jget_app.
    replace (jget tail (key_s i (String "_" suf))) with (@None json).
    2:{ symmetry. apply jget_none. unfold tail, when. destruct (negb (nq =? 0)%nat); destruct k; cbn [app];
          repeat apply Forall_cons; try apply Forall_nil; cbn [fst];
          match goal with |- text_eqb ?a _ = false => assert (plain a) as Pl by plain; apply Pl; exact Hi end. }
    destruct (jget (triples l) (key_s i (String "_" suf))); [reflexivity|].
    replace (jget head (key_s i (String "_" suf))) with (@None json).
    2:{ symmetry. apply jget_none. unfold head. repeat apply Forall_cons; try apply Forall_nil; cbn [fst];
          match goal with |- text_eqb ?a _ = false => assert (plain a) as Pl by plain; apply Pl; exact Hi end. }
    apply jget_none. unfold headC. destruct (rootC MB p); [|apply Forall_nil]. apply Forall_cons; [|apply Forall_nil]. cbn [fst].
    assert (plain (str "rootC")) as Pl by plain. apply Pl. exact Hi. }
  assert (NQ : num_query m = Nat.min (length qs) 31).
  { unfold num_query. erewrite map_ext_in.
    - apply (max_seq (fun i => (i <=? length qs)%nat)). reflexivity.
    - intros i Hi. apply in_seq in Hi. cbn beta. rewrite T by lia. destruct (Nat.leb_spec i (length qs)) as [Le|Gt].
      + assert (In i (map fst l)) as Hin by (rewrite E2; apply in_seq; lia).
        apply in_map_iff in Hin. destruct Hin as [[i' t] [<- Hin]]. cbn [fst]. destruct (triples_get l i' t Lnd Hin) as [-> _]. reflexivity.
      + rewrite triples_none; [reflexivity|]. rewrite E2. intros G. apply in_seq in G. lia. }
  unfold de_proof.
  rewrite (field_ok m (str "root1") (ser_digest k (root1 MB p)) (de_digest k) (root1 MB p)); cycle 1.
  { rewrite M by plain. unfold tail, when. destruct (negb (nq =? 0)%nat), k; reflexivity. } { apply digest_roundtrip; exact C1. }
  rewrite (field_ok m (str "root2") (ser_digest k (root2 MB p)) (de_digest k) (root2 MB p)); cycle 1.
  { rewrite M by plain. unfold tail, when. destruct (negb (nq =? 0)%nat), k; reflexivity. } { apply digest_roundtrip; exact C2. }
  rewrite (field_ok m (str "root3") (ser_digest k (root3 MB p)) (de_digest k) (root3 MB p)); cycle 1.
  { rewrite M by plain. unfold tail, when. destruct (negb (nq =? 0)%nat), k; reflexivity. } { apply digest_roundtrip; exact C3. }
  rewrite (field_ok m (str "root4") (ser_digest k (root4 MB p)) (de_digest k) (root4 MB p)); cycle 1.
  { rewrite M by plain. unfold tail, when. destruct (negb (nq =? 0)%nat), k; reflexivity. } { apply digest_roundtrip; exact C4. }
  cbn [bind].
  assert (RC : match jget m (str "rootC") with Some v => rmap Some (unwrap (de_digest k v)) | None => Ok None end = Ok (rootC MB p)).
  { rewrite M by plain. replace (jget tail (str "rootC")) with (@None json) by (unfold tail, when; destruct (negb (nq =? 0)%nat), k; reflexivity).
    unfold headC. destruct (rootC MB p) as [r|] eqn:Er.
    - replace (jget [(str "rootC", ser_digest k r)] (str "rootC")) with (Some (ser_digest k r)) by reflexivity.
      replace (jget head (str "rootC")) with (@None json) by reflexivity.
      rewrite digest_roundtrip by exact CC. reflexivity.
    - reflexivity. }
  rewrite RC. cbn [bind].
  assert (AD : match jget m (str "proverAddr") with Some v => unwrap (de_string v) | None => Ok [] end
               = Ok (match k with GL => [] | _ => prover_addr MB p end)).
  { rewrite M by plain. unfold tail, headC, when. destruct (negb (nq =? 0)%nat), k, (rootC MB p); reflexivity. }
  rewrite AD. cbn [bind].
  rewrite (field_ok m (str "evals") (JArr (map ser_f3g (evals MB p))) (de_vec de_f3g) (evals MB p)); cycle 1.
  { rewrite M by plain. unfold tail, when. destruct (negb (nq =? 0)%nat), k; reflexivity. } { apply de_f3gs; exact W2. }
  cbn [bind].
  rewrite (field_ok m (str "publics") (JArr (map ser_f3g (publics MB p))) (de_vec de_f3g) (publics MB p)); cycle 1.
  { rewrite M by plain. unfold tail, when. destruct (negb (nq =? 0)%nat), k; reflexivity. } { apply de_f3gs; exact W3. }
  cbn [bind].
  assert (Znil : (nq =? 0)%nat = true -> pol_queries MB q0 = []).
  { intros Hz. apply Nat.eqb_eq in Hz. apply length_0_nil. exact Hz. }
  cbn [mapM].
  rewrite (de_s0_ok m "1" (pol_queries MB q0) 0 v1 s1 d1 A2 A3 A4)
    by (left; split; rewrite M by plain; unfold tail, when; destruct (negb (nq =? 0)%nat), k; reflexivity).
  cbn [bind].
  rewrite (de_s0_ok m "2" (pol_queries MB q0) 1 v2 s2 d2 B2 B3 B4)
    by (destruct (nq =? 0)%nat eqn:Ez; [right; split; [rewrite M by plain; unfold tail, headC, when; cbn [negb]; destruct k, (rootC MB p); reflexivity|exact (Znil eq_refl)]
       |left; split; rewrite M by plain; unfold tail, when; cbn [negb]; destruct k; reflexivity]).
  cbn [bind].
  rewrite (de_s0_ok m "3" (pol_queries MB q0) 2 v3 s3 d3' D2 D3 D4)
    by (destruct (nq =? 0)%nat eqn:Ez; [right; split; [rewrite M by plain; unfold tail, headC, when; cbn [negb]; destruct k, (rootC MB p); reflexivity|exact (Znil eq_refl)]
       |left; split; rewrite M by plain; unfold tail, when; cbn [negb]; destruct k; reflexivity]).
  cbn [bind].
  rewrite (de_s0_ok m "4" (pol_queries MB q0) 3 v4 s4 d4 G2 G3 G4)
    by (left; split; rewrite M by plain; unfold tail, when; destruct (negb (nq =? 0)%nat), k; reflexivity).
  cbn [bind].
  rewrite (de_s0_ok m "C" (pol_queries MB q0) 4 v5 s5 d5 H2 H3 H4)
    by (left; split; rewrite M by plain; unfold tail, when; destruct (negb (nq =? 0)%nat), k; reflexivity).
  cbn [bind]. change (vget ?l 0) with (Ok (hd ([], []) l)). cbn [bind hd fst]. rewrite map_length. fold nq.
  rewrite (mapM_ok _ (fun i => nth i (pol_queries MB q0) [])).
  2:{ intros i Hi. apply in_seq in Hi. rewrite <- (five_cells _ F0 i) by lia. cbn [mapM map].
      rewrite !fill_id by (cbn [fst]; apply map_length).
      rewrite (row_back 0 (pol_queries MB q0)) by (auto; lia). cbn [bind]. rewrite (row_back 1 (pol_queries MB q0)) by (auto; lia). cbn [bind].
      rewrite (row_back 2 (pol_queries MB q0)) by (auto; lia). cbn [bind]. rewrite (row_back 3 (pol_queries MB q0)) by (auto; lia). cbn [bind].
      rewrite (row_back 4 (pol_queries MB q0)) by (auto; lia). reflexivity. }
  cbn [bind]. replace (map (fun i => nth i (pol_queries MB q0) []) (seq 0 nq)) with (pol_queries MB q0) by (symmetry; apply nth_map_seq).
  rewrite NQ.
  rewrite (mapM_ok _ (fun i => nth (i - 1) qs q0)).
  2:{ intros i Hi. apply in_seq in Hi.
      assert (Hq : nth_error qs (i - 1) = Some (nth (i - 1) qs q0)) by (apply nth_error_nth_lt; lia).
      assert (Ll : length l = length qs) by (rewrite <- (map_length fst l), E2; apply seq_length).
      destruct (nth_error l (i - 1)) as [[i' t]|] eqn:El; [|apply nth_error_None in El; lia].
      assert (i' = i).
      { apply (map_nth_error fst) in El. rewrite E2 in El. cbn [fst] in El.
        rewrite (nth_error_nth' _ 0%nat) in El by (rewrite seq_length; lia). rewrite seq_nth in El by lia. injection El. lia. }
      subst i'. assert (SB : step_back nq i (nth (i - 1) qs q0) t).
      { exact (Forall2_nth _ _ _ E3 _ _ _ Hq El). }
      apply nth_error_In in El. destruct (triples_get l i t Lnd El) as [T1 [T2 T3]].
      apply (de_step_ok m nq i _ t); [|exact SB|rewrite T by lia; assumption..].
      rewrite Forall_forall in QS. apply QS. apply nth_In. lia. }
  cbn [bind].
  rewrite (field_ok m (str "finalPol") (JArr (map ser_f3g (last_pol MB p))) (de_vec de_f3g) (last_pol MB p)); cycle 1.
  { rewrite M by plain. unfold tail, when. destruct (negb (nq =? 0)%nat), k; reflexivity. } { apply de_f3gs; exact W1. }
  cbn [bind]. unfold result. rewrite EQ. change (firstn 32 (q0 :: qs)) with (q0 :: firstn 31 qs).
  assert (ES : map (fun i => nth (i - 1) qs q0) (seq 1 (Nat.min (length qs) 31)) = firstn 31 qs).
  { apply nth_error_ext_len; [rewrite map_length, seq_length, firstn_length; lia|]. intros i Hi. rewrite map_length, seq_length in Hi.
    rewrite nth_error_map. rewrite (nth_error_nth' _ 0%nat) by (rewrite seq_length; exact Hi). rewrite seq_nth by exact Hi. cbn [option_map].
    rewrite (nth_error_nth' _ q0) by (rewrite firstn_length; lia). rewrite nth_firstn_lt by lia.
    replace (1 + i - 1)%nat with i by lia. reflexivity. }
  rewrite ES. destruct q0 as [pq0 r0]. cbn [q_root pol_queries] in *. subst r0. reflexivity.
Qed.
End Proof.

(** ** the three kinds of trees *)
Lemma gl_cells e : cell_ok Fr gl_to_bf gl_of_bf GL e.
Proof.
  unfold cell_ok. apply Forall_forall. intros l _. apply Forall_forall. intros x _.
  exists [x; f0; f0; f0]. split; [reflexivity|]. split; [|reflexivity]. split; [reflexivity|]. intros H. congruence.
Qed.
Lemma q_node k d : k <> GL -> canonical k d -> bf_ok Z q_to_bf q_of_bf k (as_scalar d).
Proof. intros _ C. exists d. split; [apply from_as_scalar; apply C|]. split; [exact C|reflexivity]. Qed.

Theorem proof_roundtrip (MB : Type) to_bf of_bf k (p : proof MB) : proof_ok MB to_bf of_bf k p -> (length (queries MB p) <= 32)%nat ->
  (k = GL -> prover_addr MB p = []) -> bind (ser_proof MB of_bf k p) (de_proof MB to_bf k) = Ok p.
Proof.
  intros H L A. destruct (proof_back MB to_bf of_bf k p H) as [j [E1 E2]]. rewrite E1. cbn [bind]. rewrite E2. f_equal.
  unfold result. rewrite firstn_all2 by exact L. clear H L E1 E2. destruct p as [r1 r2 r3 r4 qs lp ev pu rc ad]. cbn [prover_addr queries root1 root2 root3 root4 rootC last_pol evals publics] in *.
  destruct k; [rewrite A; reflexivity|reflexivity|reflexivity].
Qed.
Theorem proof_distinct (MB : Type) to_bf of_bf k (p p' : proof MB) : proof_ok MB to_bf of_bf k p -> proof_ok MB to_bf of_bf k p' ->
  (length (queries MB p) <= 32)%nat -> (length (queries MB p') <= 32)%nat ->
  (k = GL -> prover_addr MB p = [] /\ prover_addr MB p' = []) -> ser_proof MB of_bf k p = ser_proof MB of_bf k p' -> p = p'.
Proof.
  intros H H' L L' A E. pose proof (proof_roundtrip MB to_bf of_bf k p H L (fun e => proj1 (A e))) as R.
  rewrite E, (proof_roundtrip MB to_bf of_bf k p' H' L' (fun e => proj2 (A e))) in R. congruence.
Qed.
(* more than 31 steps: the rest is gone *)
Theorem proof_truncated (MB : Type) to_bf of_bf k (p : proof MB) : proof_ok MB to_bf of_bf k p -> (32 < length (queries MB p))%nat ->
  exists p', bind (ser_proof MB of_bf k p) (de_proof MB to_bf k) = Ok p' /\ queries MB p' = firstn 32 (queries MB p) /\ p' <> p.
Proof.
  intros H L. destruct (proof_back MB to_bf of_bf k p H) as [j [E1 E2]]. rewrite E1. cbn [bind]. rewrite E2. eexists. split; [reflexivity|].
  split; [reflexivity|]. intros E. apply (f_equal (queries MB)) in E. cbn [result queries] in E. apply (f_equal (@length _)) in E.
  rewrite firstn_length in E. lia.
Qed.
Theorem proof_address (p : proof Fr) : proof_ok Fr gl_to_bf gl_of_bf GL p -> prover_addr Fr p <> [] ->
  exists p', bind (ser_proof Fr gl_of_bf GL p) (de_proof Fr gl_to_bf GL) = Ok p' /\ prover_addr Fr p' = [] /\ p' <> p.
Proof.
  intros H L. destruct (proof_back Fr gl_to_bf gl_of_bf GL p H) as [j [E1 E2]]. rewrite E1. cbn [bind]. rewrite E2. eexists. split; [reflexivity|].
  split; [reflexivity|]. intros E. apply (f_equal (prover_addr Fr)) in E. cbn [result prover_addr] in E. congruence.
Qed.
Theorem proof_no_steps (MB : Type) of_bf k (p : proof MB) : queries MB p = [] -> ser_proof MB of_bf k p = Panic.
Proof. intros E. unfold ser_proof. rewrite E. reflexivity. Qed.

(** ** a proof of one query and one further step *)
Definition ex_node (v : Z) : digest := [fof v; fof (v + 1); fof 0; fof 7].
Definition ex_sibs : list (list Fr) := [[fof 1; fof 2; fof 3; fof 4]; [fof 5; fof 6; fof 7; fof 8]].
Definition ex_q0 : query Fr := mkQ Fr [[([fof 1; fof 2], ex_sibs); ([], []); ([fof 3], ex_sibs); ([fof 4], []); ([fof 18446744069414584320], ex_sibs)]] zero4.
Definition ex_q1 : query Fr := mkQ Fr [[([fof 9; fof 8; fof 7], ex_sibs)]] (ex_node 40).
Definition ex_proof (qs : list (query Fr)) (addr : text) : proof Fr :=
  mkP Fr (ex_node 1) (ex_node 2) zero4 (ex_node 4) (ex_q0 :: qs) [e_new (fof 1) (fof 2) (fof 3)] [e_from (fof 5); e_ZEROS] [e_from (fof 6)] (Some (ex_node 9)) addr.
Lemma ex_canonical v : canonical GL (ex_node v). Proof. split; [reflexivity|congruence]. Qed.
Lemma ex_cells l : Forall (cell_ok Fr gl_to_bf gl_of_bf GL) l. Proof. apply Forall_forall. intros e _. apply gl_cells. Qed.
Lemma ex_ok n addr : proof_ok Fr gl_to_bf gl_of_bf GL (ex_proof (repeat ex_q1 n) addr).
Proof.
  assert (W : forall a, wf (e_from a)) by apply wf_from. assert (W3 : forall a b c, wf (e_new a b c)) by (intros a b c E; discriminate E).
  unfold proof_ok, ex_proof. cbn [root1 root2 root3 root4 rootC last_pol evals publics queries].
  repeat match goal with |- _ /\ _ => split end; try apply ex_canonical; try (repeat (apply Forall_cons; [first [apply W | apply W3]|]); apply Forall_nil).
  - split; [reflexivity|congruence].
  - exists ex_q0, (repeat ex_q1 n). split; [reflexivity|]. split.
    + split; [reflexivity|]. constructor; [|constructor]. split; [reflexivity|]. apply ex_cells.
    + apply Forall_forall. intros q Hq. apply repeat_spec in Hq. subst q. split; [apply ex_canonical|]. split; [reflexivity|].
      constructor; [|constructor]. split; [reflexivity|]. apply ex_cells.
Qed.
