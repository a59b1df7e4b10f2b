(* Tables of polynomial values: saving, loading, and what comes back. *)
From Verif Require Import Base ListAux GlModel NumTheory GlProof FrField F3gModel BnModel BinModel BinProof SerProof PolsModel.
Open Scope Z_scope.
Open Scope res_scope.

Lemma word_bytes_app a b : word_bytes (a ++ b) = word_bytes a ++ word_bytes b.
Proof. unfold word_bytes. rewrite map_app, concat_app. reflexivity. Qed.
Lemma word_bytes_len a : length (word_bytes a) = (length a * 8)%nat.
Proof. induction a as [|w a IH]; [reflexivity|]. change (word_bytes (w :: a)) with (u64 w ++ word_bytes a). rewrite app_length, IH, u64_len. reflexivity. Qed.

(** ** saving *)
(* a state of the buffer after the values [done] *)
Definition good (cap : nat) (done : list Z) (st : list Z * list Z * nat) : Prop :=
  let '(out, buff, p) := st in
  exists flushed, out = word_bytes flushed /\ done = flushed ++ firstn p buff /\ length buff = cap /\ (p < cap)%nat.

Lemma vset_firstn {A} (l : list A) p v l' : vset l p v = Ok l' -> length l' = length l /\ firstn (S p) l' = firstn p l ++ [v].
Proof.
  unfold vset. revert p l'. induction l as [|x l IH]; intros p l' H; [destruct p; discriminate H|].
  destruct p as [|p]; cbn [vset_aux] in H; [injection H as <-; split; reflexivity|].
  destruct (vset_aux l p v) as [r|] eqn:E; [|discriminate H]. injection H as <-.
  destruct (IH p r ltac:(rewrite E; reflexivity)) as [L F]. cbn [length]. split; [lia|].
  change (firstn (S (S p)) (x :: r)) with (x :: firstn (S p) r). rewrite F. reflexivity.
Qed.
Lemma push_good cap done st v : good cap done st -> exists st', push st v = Ok st' /\ good cap (done ++ [v]) st'.
Proof.
  destruct st as [[out buff] p]. intros [fl [-> [-> [L Hp]]]]. unfold push.
  destruct (vset_ok buff p v ltac:(lia)) as [b' [Eb _]]. rewrite Eb. cbn [bind].
  destruct (vset_firstn _ _ _ _ Eb) as [L' F]. destruct (Nat.eqb_spec (S p) (length b')) as [E|E].
  - eexists. split; [reflexivity|]. exists (fl ++ b'). split; [rewrite word_bytes_app; reflexivity|].
    split; [|split; [lia|lia]]. cbn [firstn]. rewrite app_nil_r, <- app_assoc, <- F, E, firstn_all. reflexivity.
  - eexists. split; [reflexivity|]. exists fl. split; [reflexivity|]. split; [rewrite F, app_assoc; reflexivity|]. lia.
Qed.

(* the values row by row *)
Definition cellv (a : list (list Fr)) (j i : nat) : Fr := nth i (nth j a []) f0.
Definition rowmajor (np n : nat) (a : list (list Fr)) : list Fr :=
  flat_map (fun i => map (fun j => cellv a j i) (seq 0 np)) (seq 0 n).
(* a table: as many columns as announced, none shorter than the number of rows *)
Definition shaped (t : pols) : Prop :=
  length (p_array t) = nPols t /\ Forall (fun col => (p_n t <= length col)%nat) (p_array t).

Lemma at_ok t i j : shaped t -> (i < p_n t)%nat -> (j < nPols t)%nat -> at_ (p_array t) j i = Ok (cellv (p_array t) j i).
Proof.
  intros [L F] Hi Hj. unfold at_. rewrite (vget_some _ j (nth j (p_array t) [])) by (apply nth_error_nth_lt; lia). cbn [bind].
  apply vget_some. apply nth_error_nth_lt. rewrite Forall_forall in F. specialize (F (nth j (p_array t) []) ltac:(apply nth_In; lia)). lia.
Qed.
Lemma list_prod_in a n b m (x : nat * nat) : In x (list_prod (seq a n) (seq b m)) -> (a <= fst x < a + n)%nat /\ (b <= snd x < b + m)%nat.
Proof. destruct x as [i j]. intros H. apply in_prod_iff in H. destruct H as [H1 H2]. apply in_seq in H1. apply in_seq in H2. cbn [fst snd]. lia. Qed.
Lemma rowmajor_prod np n a : rowmajor np n a = map (fun ij => cellv a (snd ij) (fst ij)) (list_prod (seq 0 n) (seq 0 np)).
Proof.
  unfold rowmajor. induction (seq 0 n) as [|i l IH]; [reflexivity|]. cbn [flat_map list_prod]. rewrite map_app, <- IH. f_equal. rewrite map_map. reflexivity.
Qed.
Lemma rowmajor_len np n a : length (rowmajor np n a) = (np * n)%nat.
Proof. rewrite rowmajor_prod, map_length, prod_length, !seq_length. lia. Qed.
Lemma push_all cap (f : nat * nat -> res Z) (g : nat * nat -> Z) : forall l done st, (forall x, In x l -> f x = Ok (g x)) -> good cap done st ->
  exists st', foldM (fun st x => do v <- f x; push st v) l st = Ok st' /\ good cap (done ++ map g l) st'.
Proof.
  induction l as [|x l IH]; intros done st Hf G; [exists st; rewrite app_nil_r; auto|].
  destruct (push_good cap done st (g x) G) as [st1 [E1 G1]].
  destruct (IH (done ++ [g x]) st1 ltac:(intros y Hy; apply Hf; right; exact Hy) G1) as [st' [E' G']].
  exists st'. cbn [foldM]. rewrite Hf by (left; reflexivity). cbn [bind]. rewrite E1. cbn [bind]. split; [exact E'|].
  rewrite <- app_assoc in G'. exact G'.
Qed.
Lemma foldM_ext {A B} (f g : B -> A -> res B) : (forall b a, f b a = g b a) -> forall l b, foldM f l b = foldM g l b.
Proof. intros H. induction l as [|a l IH]; intros b; [reflexivity|]. cbn [foldM]. rewrite H. destruct (g b a); cbn [bind]; auto. Qed.
Lemma buffSize_pos t : (0 < totalSize t)%nat -> (0 < buffSize t)%nat.
Proof. unfold buffSize. intros H. lia. Qed.
Lemma fint_mod a : fint a mod 0xFFFFFFFF00000001 = fint a.
Proof. exact (fint_small a). Qed.

(* the file starts with the values row by row, each in eight bytes; what follows is left over in the buffer *)
Theorem save_spec t : shaped t -> exists tail, save t = Ok (word_bytes (map fint (rowmajor (nPols t) (p_n t) (p_array t))) ++ tail).
Proof.
  intros S. unfold save. destruct (Nat.eq_dec (totalSize t) 0) as [Z0|NZ].
  - assert (E : list_prod (seq 0 (p_n t)) (seq 0 (nPols t)) = []).
    { apply length_0_nil. rewrite prod_length, !seq_length. unfold totalSize in Z0. lia. }
    rewrite rowmajor_prod, E. exists []. reflexivity.
  - set (g := fun ij : nat * nat => fint (cellv (p_array t) (snd ij) (fst ij))).
    rewrite (foldM_ext _ (fun st ij => do v <- (do v <- at_ (p_array t) (snd ij) (fst ij); Ok (fint v mod 0xFFFFFFFF00000001)); push st v)).
    2:{ intros b x. destruct (at_ (p_array t) (snd x) (fst x)); reflexivity. }
    destruct (push_all (buffSize t) (fun ij => do v <- at_ (p_array t) (snd ij) (fst ij); Ok (fint v mod 0xFFFFFFFF00000001)) g
                (list_prod (seq 0 (p_n t)) (seq 0 (nPols t))) [] ([], repeat 0 (buffSize t), O)) as [st' [E G]].
    + intros x Hx. apply list_prod_in in Hx. rewrite (at_ok t) by (auto; lia). cbn [bind]. rewrite fint_mod. reflexivity.
    + exists []. split; [reflexivity|]. split; [reflexivity|]. split; [apply repeat_length|apply buffSize_pos; lia].
    + rewrite E. cbn [bind]. destruct st' as [[out buff] p]. destruct G as [fl [-> [D [L Hp]]]]. cbn [app] in D.
      rewrite rowmajor_prod, map_map. change (fun x : nat * nat => fint (cellv (p_array t) (snd x) (fst x))) with g. rewrite D, word_bytes_app.
      destruct (Nat.ltb_spec 0 p) as [P0|P0].
      * exists (word_bytes (skipn p buff)). rewrite <- app_assoc, <- (word_bytes_app (firstn p buff)), firstn_skipn. reflexivity.
      * assert (p = 0%nat) by lia. subst p. exists []. cbn [firstn]. change (word_bytes []) with (@nil Z). rewrite !app_nil_r. reflexivity.
Qed.

(** ** storing *)
Definition written (np : nat) (ws : list Fr) (old : list (list Fr)) (a : list (list Fr)) : Prop :=
  map (@length Fr) a = map (@length Fr) old /\
  forall j i, (j < np)%nat -> cellv a j i = if (i * np + j <? length ws)%nat then nth (i * np + j) ws f0 else cellv old j i.

Lemma cellv_vset a i j col v a' col' : vget a i = Ok col -> vset col j v = Ok col' -> vset a i col' = Ok a' ->
  map (@length Fr) a' = map (@length Fr) a /\
  forall j' i', cellv a' j' i' = if (j' =? i)%nat && (i' =? j)%nat then v else cellv a j' i'.
Proof.
  intros Hg Hc Ha.
  assert (N : forall (X : Type) (l : list X) p x l' d, vset l p x = Ok l' ->
     length l' = length l /\ (p < length l)%nat /\ forall q, nth q l' d = if (q =? p)%nat then x else nth q l d).
  { intros X l p x l' d H. unfold vset in H. revert p l' H. induction l as [|y l IH]; intros p l' H; [destruct p; discriminate H|].
    destruct p as [|p]; cbn [vset_aux] in H.
    - injection H as <-. split; [reflexivity|]. split; [cbn [length]; lia|]. intros [|q]; reflexivity.
    - destruct (vset_aux l p x) as [r|] eqn:E; [|discriminate H]. injection H as <-. destruct (IH p r ltac:(rewrite E; reflexivity)) as [L [Lt Nq]].
      split; [cbn [length]; lia|]. split; [cbn [length]; lia|]. intros [|q]; [reflexivity|]. cbn [nth Nat.eqb]. apply Nq. }
  destruct (N _ col j v col' f0 Hc) as [L1 [Lt1 N1]]. destruct (N _ a i col' a' [] Ha) as [L2 [Lt2 N2]].
  assert (Hn : nth i a [] = col) by (apply vget_inv in Hg; apply nth_error_nth; exact Hg).
  split.
  - apply (nth_ext _ _ 0%nat 0%nat); [rewrite !map_length; exact L2|]. intros q Hq. rewrite !(map_nth (@length Fr) _ []).
    rewrite N2. destruct (Nat.eqb_spec q i) as [->|]; [rewrite L1, Hn; reflexivity|reflexivity].
  - intros j' i'. unfold cellv. rewrite N2. destruct (Nat.eqb_spec j' i) as [->|]; cbn [andb]; [|reflexivity].
    rewrite N1, Hn. reflexivity.
Qed.

Lemma store_ok np old (vs : list Fr) : (0 < np)%nat -> forall rest a i j,
  length old = np -> Forall (fun col => (length vs + length rest <= np * length col)%nat) old ->
  written np vs old a -> (length vs = j * np + i)%nat -> (i < np)%nat ->
  exists a' i' j', foldM (store np) (map fint rest) (a, i, j) = Ok (a', i', j') /\ written np (vs ++ rest) old a' /\
    (length (vs ++ rest) = j' * np + i')%nat /\ (i' < np)%nat.
Proof.
  intros Hnp rest. revert vs. induction rest as [|v rest IH]; intros vs a i j Lo F [Wl Wc] Hl Hi.
  - exists a, i, j. rewrite app_nil_r. split; [reflexivity|]. split; [split; assumption|]. auto.
  - cbn [map foldM]. unfold store at 1. rewrite fr_from_int. cbn [bind].
    assert (La : length a = np) by (rewrite <- Lo, <- (map_length (@length Fr) a), Wl; apply map_length).
    rewrite (vget_some a i (nth i a [])) by (apply nth_error_nth_lt; lia). cbn [bind].
    assert (Lc : length (nth i a []) = length (nth i old [])).
    { rewrite <- !(map_nth (@length Fr) _ [] i). rewrite Wl. reflexivity. }
    assert (Lj : (j < length (nth i a []))%nat).
    { rewrite Lc. rewrite Forall_forall in F. specialize (F (nth i old []) ltac:(apply nth_In; lia)). cbn [length] in F. nia. }
    destruct (vset_ok (nth i a []) j v Lj) as [col' [Ec _]]. rewrite Ec. cbn [bind].
    destruct (vset_ok a i col' ltac:(lia)) as [a1 [Ea _]]. rewrite Ea. cbn [bind].
    destruct (cellv_vset a i j _ v a1 col' (vget_some a i (nth i a []) ltac:(apply nth_error_nth_lt; lia)) Ec Ea) as [Hlen Hc].
    assert (W1 : written np (vs ++ [v]) old a1).
    { split; [rewrite Hlen; exact Wl|]. intros j' i' Hj'. rewrite Hc, app_length. cbn [length].
      destruct (Nat.eqb_spec j' i) as [->|N1]; cbn [andb].
      - destruct (Nat.eqb_spec i' j) as [->|N2].
        + rewrite (proj2 (Nat.ltb_lt _ _)) by lia. rewrite app_nth2 by lia. replace (j * np + i - length vs)%nat with 0%nat by lia. reflexivity.
        + rewrite (Wc i i' Hi). assert (i' * np + i <> j * np + i)%nat by nia.
          destruct (Nat.ltb_spec (i' * np + i) (length vs)) as [Lt|Ge].
          * rewrite (proj2 (Nat.ltb_lt _ _)) by lia. rewrite app_nth1 by lia. reflexivity.
          * rewrite (proj2 (Nat.ltb_ge _ _)) by lia. reflexivity.
      - rewrite (Wc j' i' Hj'). assert (i' * np + j' <> j * np + i)%nat.
        { intros E. apply N1. assert (E2 : ((j' + i' * np) mod np = (i + j * np) mod np)%nat) by (f_equal; lia).
          rewrite !Nat.mod_add, !Nat.mod_small in E2 by lia. exact E2. }
        destruct (Nat.ltb_spec (i' * np + j') (length vs)) as [Lt|Ge].
        * rewrite (proj2 (Nat.ltb_lt _ _)) by lia. rewrite app_nth1 by lia. reflexivity.
        * rewrite (proj2 (Nat.ltb_ge _ _)) by lia. reflexivity. }
    assert (F1 : Forall (fun col => (length (vs ++ [v]) + length rest <= np * length col)%nat) old).
    { eapply Forall_impl; [|exact F]. cbn [length]. intros col Hcol. rewrite app_length. cbn [length]. lia. }
    replace (vs ++ v :: rest) with ((vs ++ [v]) ++ rest) by (rewrite <- app_assoc; reflexivity).
    destruct (Nat.eqb_spec (S i) np) as [E|E].
    + apply IH; auto; rewrite ?app_length; cbn [length]; nia.
    + apply IH; auto; rewrite ?app_length; cbn [length]; lia.
Qed.

(** ** loading *)
Lemma words_bytes ws rest : Forall (fun w => 0 <= w < 2 ^ 64) ws -> forall n, (n <= length ws)%nat -> words n (word_bytes ws ++ rest) = firstn n ws.
Proof.
  induction 1 as [|w ws Hw _ IH]; intros n Hn; [destruct n; [reflexivity|cbn [length] in Hn; lia]|]. destruct n as [|n]; [reflexivity|].
  cbn [length] in Hn. change (word_bytes (w :: ws)) with (u64 w ++ word_bytes ws). rewrite <- app_assoc. cbn [words]. change (firstn (S n) (w :: ws)) with (w :: firstn n ws).
  rewrite take_app by apply u64_len. rewrite drop_app by apply u64_len. rewrite IH by lia. f_equal.
  unfold u64. apply le_val_small. change (256 ^ Z.of_nat 8) with (2 ^ 64). exact Hw.
Qed.
Lemma skip_bytes ws rest n : (n <= length ws)%nat -> skipn (n * 8) (word_bytes ws ++ rest) = word_bytes (skipn n ws) ++ rest.
Proof.
  intros H. rewrite <- (firstn_skipn n ws) at 1. rewrite word_bytes_app, <- app_assoc. apply drop_app. rewrite word_bytes_len, firstn_length. lia.
Qed.
(* reads that never split a word *)
Definition aligned (rd : nat -> nat) : Prop := forall s, (8 <= rd s)%nat /\ (rd s mod 8 = 0)%nat.
Lemma min8 a b : (a mod 8 = 0)%nat -> (8 <= a)%nat -> (1 <= b)%nat -> exists m, Nat.min a (b * 8) = (m * 8)%nat /\ (1 <= m <= b)%nat.
Proof.
  intros Ha L Hb. assert (E : (a = a / 8 * 8)%nat) by (pose proof (Nat.div_mod a 8 ltac:(lia)); lia).
  exists (Nat.min (a / 8) b). destruct (Nat.min_spec (a / 8) b) as [[H1 ->]|[H1 ->]]; lia.
Qed.
Lemma fint_words l : Forall (fun w => 0 <= w < 2 ^ 64) (map fint l).
Proof. apply Forall_forall. intros w H. apply in_map_iff in H. destruct H as [a [<- _]]. apply fint_64. Qed.

Lemma load_ok rd t old tail : aligned rd -> length old = nPols t -> Forall (fun col => (p_n t <= length col)%nat) old ->
  forall fuel s vs rest a i j k, k = length vs -> (length vs + length rest = totalSize t)%nat ->
  written (nPols t) vs old a -> (length vs = j * nPols t + i)%nat -> (i < nPols t \/ rest = [])%nat ->
  (length (word_bytes (map fint rest) ++ tail) < fuel)%nat ->
  exists a', load_loop rd t fuel s (word_bytes (map fint rest) ++ tail) (a, i, j) k = Ok a' /\ written (nPols t) (vs ++ rest) old a'.
Proof.
  intros Al Lo Fo fuel. induction fuel as [|fuel IH]; intros s vs rest a i j k -> Ht W Hl Hi Hf; [lia|].
  cbn [load_loop]. destruct (Nat.ltb_spec (length vs) (totalSize t)) as [Lt|Ge].
  - destruct rest as [|r0 rest0] eqn:Er; [cbn [length] in Ht; lia|]. rewrite <- Er in *. assert (Lr : (1 <= length rest)%nat) by (rewrite Er; cbn [length]; lia).
    assert (Hi' : (i < nPols t)%nat) by (destruct Hi as [Hi|Hi]; [exact Hi|rewrite Er in Hi; discriminate Hi]).
    destruct (word_bytes (map fint rest) ++ tail) as [|b0 bs] eqn:Eb.
    { exfalso. apply (f_equal (@length Z)) in Eb. rewrite app_length, word_bytes_len, map_length in Eb. cbn [length] in Eb. lia. }
    rewrite <- Eb in *. clear b0 bs Eb.
    replace (totalSize t - length vs)%nat with (length rest) by lia.
    set (n0 := Nat.min (buffSize t) (length rest)).
    assert (Hn0 : (1 <= n0 <= length rest)%nat) by (pose proof (buffSize_pos t ltac:(lia)); subst n0; lia).
    assert (Lf : (n0 * 8 <= length (word_bytes (map fint rest) ++ tail))%nat) by (rewrite app_length, word_bytes_len, map_length; lia).
    rewrite (Nat.min_l (n0 * 8)) by exact Lf.
    destruct (min8 (rd s) n0 (proj2 (Al s)) (proj1 (Al s)) (proj1 Hn0)) as [m [Em Hm]]. rewrite Em.
    replace (Nat.max 1 (m * 8)) with (m * 8)%nat by lia. rewrite Nat.div_mul by lia.
    rewrite words_bytes by (try apply fint_words; rewrite map_length; lia). rewrite firstn_map.
    destruct (store_ok (nPols t) old vs ltac:(lia) (firstn m rest) a i j) as [a' [i' [j' [E1 [W1 [L1 I1]]]]]]; auto.
    { eapply Forall_impl; [|exact Fo]. cbn beta. intros col Hc. rewrite firstn_length. unfold totalSize in Ht. nia. }
    rewrite E1. cbn [bind]. rewrite skip_bytes by (rewrite map_length; lia). rewrite skipn_map.
    replace (vs ++ rest) with ((vs ++ firstn m rest) ++ skipn m rest) by (rewrite <- app_assoc, firstn_skipn; reflexivity).
    apply IH; auto.
    + rewrite app_length, firstn_length. lia.
    + rewrite !app_length, firstn_length, skipn_length. lia.
    + rewrite app_length, word_bytes_len, map_length in Hf |- *. rewrite skipn_length. lia.
  - assert (rest = []) by (apply length_0_nil; lia). subst rest. exists a. cbn [fst]. rewrite app_nil_r. split; [reflexivity|exact W].
Qed.

Lemma rowmajor_nth np n a i j : (i < n)%nat -> (j < np)%nat -> nth (i * np + j) (rowmajor np n a) f0 = cellv a j i.
Proof.
  intros Hi Hj. unfold rowmajor. rewrite flat_map_concat_map. apply nth_error_nth. rewrite (nth_concat np).
  - rewrite nth_error_map. rewrite (nth_error_nth' _ 0%nat) by (rewrite seq_length; exact Hi). rewrite seq_nth by exact Hi. cbn [option_map Nat.add].
    rewrite nth_error_map. rewrite (nth_error_nth' _ 0%nat) by (rewrite seq_length; exact Hj). rewrite seq_nth by exact Hj. reflexivity.
  - apply Forall_forall. intros l Hl. apply in_map_iff in Hl. destruct Hl as [x [<- _]]. rewrite map_length, seq_length. reflexivity.
  - exact Hj.
Qed.

(* what loading gives, cell by cell *)
Theorem load_save rd t u file : aligned rd -> shaped t -> shaped u -> nPols u = nPols t -> p_n u = p_n t -> save t = Ok file ->
  exists u', load rd u file = Ok u' /\ nPols u' = nPols t /\ p_n u' = p_n t /\
    map (@length Fr) (p_array u') = map (@length Fr) (p_array u) /\
    forall j i, (j < nPols t)%nat -> cellv (p_array u') j i = if (i <? p_n t)%nat then cellv (p_array t) j i else cellv (p_array u) j i.
Proof.
  intros Al St Su E1 E2 Hs. destruct (save_spec t St) as [tail Hs']. rewrite Hs in Hs'. injection Hs' as ->.
  unfold load. destruct (load_ok rd u (p_array u) tail Al (proj1 Su) (proj2 Su)
     (S (length (word_bytes (map fint (rowmajor (nPols t) (p_n t) (p_array t))) ++ tail))) 0 [] (rowmajor (nPols t) (p_n t) (p_array t)) (p_array u) 0 0 0) as [a' [El [Wl Wc]]]; auto.
  - rewrite rowmajor_len. unfold totalSize. rewrite E1, E2. cbn [length]. lia.
  - split; [reflexivity|]. intros j i _. destruct (i * nPols u + j)%nat; reflexivity.
  - destruct (Nat.eq_dec (nPols u) 0) as [Z0|]; [|left; lia]. right. apply length_0_nil. rewrite rowmajor_len. rewrite <- E1, Z0. reflexivity.
  - rewrite El. cbn [bind]. eexists. split; [reflexivity|]. cbn [nPols p_n p_array]. split; [exact E1|]. split; [exact E2|]. split; [exact Wl|].
    intros j i Hj. rewrite Wc by lia. cbn [app]. rewrite rowmajor_len, E1.
    destruct (Nat.ltb_spec i (p_n t)) as [Lt|Ge].
    + rewrite (proj2 (Nat.ltb_lt _ _)) by nia. apply rowmajor_nth; assumption.
    + rewrite (proj2 (Nat.ltb_ge _ _)) by nia. reflexivity.
Qed.
(* columns as long as announced come back whole *)
Definition exact_table (t : pols) : Prop := length (p_array t) = nPols t /\ Forall (fun col => length col = p_n t) (p_array t).
Lemma exact_shaped t : exact_table t -> shaped t.
Proof. intros [L F]. split; [exact L|]. eapply Forall_impl; [|exact F]. cbn beta. intros; lia. Qed.
Theorem load_save_exact rd t u : aligned rd -> exact_table t -> exact_table u -> nPols u = nPols t -> p_n u = p_n t ->
  bind (save t) (load rd u) = Ok t.
Proof.
  intros Al Et Eu E1 E2. destruct (save_spec t (exact_shaped t Et)) as [tail Hs].
  destruct (load_save rd t u _ Al (exact_shaped t Et) (exact_shaped u Eu) E1 E2 Hs) as [u' [El [N1 [N2 [Hl Hc]]]]].
  rewrite Hs. cbn [bind]. rewrite El. f_equal. destruct Et as [Lt Ft]. destruct Eu as [Lu Fu].
  destruct u' as [np' n' a']. destruct t as [np n a]. cbn [nPols p_n p_array] in *. subst np' n'.
  assert (La : length a' = length a). { rewrite <- (map_length (@length Fr) a'), Hl, map_length. lia. }
  f_equal. apply (nth_ext _ _ [] []); [exact La|]. intros j Hj.
  assert (Lj : length (nth j a' []) = n).
  { rewrite <- (map_nth (@length Fr) a' [] j), Hl. rewrite (map_nth (@length Fr)). rewrite Forall_forall in Fu. rewrite <- E2. apply Fu. apply nth_In. lia. }
  assert (Lj' : length (nth j a []) = n). { rewrite Forall_forall in Ft. apply Ft. apply nth_In. lia. }
  apply (nth_ext _ _ f0 f0); [lia|]. intros i Hi. change (cellv a' j i = cellv a j i). rewrite Hc by lia.
  rewrite (proj2 (Nat.ltb_lt _ _)) by lia. reflexivity.
Qed.

(** ** files that are too short *)
Lemma load_needs rd t fuel : forall s file st k a, load_loop rd t fuel s file st k = Ok a -> (k < totalSize t)%nat -> (8 * totalSize t <= 8 * k + length file)%nat.
Proof.
  induction fuel as [|fuel IH]; intros s file st k a H Hk; cbn [load_loop] in H; rewrite (proj2 (Nat.ltb_lt _ _) Hk) in H; [discriminate H|].
  destruct file as [|b file0] eqn:Ef; [discriminate H|]. rewrite <- Ef in *.
  assert (Lf : (1 <= length file)%nat) by (rewrite Ef; cbn [length]; lia). clear Ef.
  set (rs := Nat.max 1 (Nat.min (rd s) (Nat.min (Nat.min (buffSize t) (totalSize t - k) * 8) (length file)))) in *.
  assert (Hrs : (rs <= length file)%nat) by (subst rs; lia). clearbody rs.
  destruct (foldM (store (nPols t)) (words (rs / 8) file) st) as [st'| | |]; cbn [bind] in H; try discriminate H.
  pose proof (Nat.div_mod rs 8 ltac:(lia)) as D. pose proof (Nat.mod_upper_bound rs 8 ltac:(lia)).
  destruct (Nat.lt_ge_cases (k + rs / 8) (totalSize t)) as [Lt|Ge].
  - apply IH in H; [|exact Lt]. rewrite skipn_length in H. lia.
  - lia.
Qed.
(* a file with fewer bytes than the table needs is never loaded *)
Theorem load_short rd t file : (length file < 8 * totalSize t)%nat -> forall u, load rd t file <> Ok u.
Proof.
  intros H u E. unfold load in E. destruct (load_loop rd t (S (length file)) 0 file (p_array t, O, O) 0) as [a| | |] eqn:El; cbn [bind] in E; try discriminate E.
  apply load_needs in El; lia.
Qed.
(* and the call does not return at all when its words are field elements *)
Lemma store_nohang np old : (0 < np)%nat -> forall (rest vs : list Fr) a i j,
  length old = np -> Forall (fun col => (length vs + length rest <= np * length col)%nat) old ->
  written np vs old a -> (length vs = j * np + i)%nat -> (i < np)%nat ->
  exists st, foldM (store np) (map fint rest) (a, i, j) = Ok st.
Proof. intros Hn rest vs a i j A B C D E. destruct (store_ok np old vs Hn rest a i j A B C D E) as [a' [i' [j' [H _]]]]. eauto. Qed.

Lemma load_hang rd t old : aligned rd -> length old = nPols t -> Forall (fun col => (p_n t <= length col)%nat) old ->
  forall fuel s vs rest a i j k, k = length vs -> (length vs + length rest < totalSize t)%nat ->
  written (nPols t) vs old a -> (length vs = j * nPols t + i)%nat -> (i < nPols t)%nat ->
  load_loop rd t fuel s (word_bytes (map fint rest)) (a, i, j) k = Hang.
Proof.
  intros Al Lo Fo fuel. induction fuel as [|fuel IH]; intros s vs rest a i j k -> Ht W Hl Hi; cbn [load_loop];
    rewrite (proj2 (Nat.ltb_lt _ _)) by lia; [reflexivity|].
  destruct rest as [|r0 rest0] eqn:Er; [reflexivity|]. rewrite <- Er in *. assert (Lr : (1 <= length rest)%nat) by (rewrite Er; cbn [length]; lia).
  destruct (word_bytes (map fint rest)) as [|b0 bs] eqn:Eb; [reflexivity|]. rewrite <- Eb in *. clear b0 bs Eb.
  assert (Lf : length (word_bytes (map fint rest)) = (length rest * 8)%nat) by (rewrite word_bytes_len, map_length; reflexivity). rewrite Lf.
  set (n0 := Nat.min (Nat.min (buffSize t) (totalSize t - length vs)) (length rest)).
  assert (Hn0 : (1 <= n0 <= length rest)%nat) by (pose proof (buffSize_pos t ltac:(lia)); subst n0; lia).
  replace (Nat.min (Nat.min (buffSize t) (totalSize t - length vs) * 8) (length rest * 8)) with (n0 * 8)%nat by (subst n0; lia).
  destruct (min8 (rd s) n0 (proj2 (Al s)) (proj1 (Al s)) (proj1 Hn0)) as [m [Em Hm]]. rewrite Em.
  replace (Nat.max 1 (m * 8)) with (m * 8)%nat by lia. rewrite Nat.div_mul by lia.
  assert (Sk : skipn (m * 8) (word_bytes (map fint rest)) = word_bytes (map fint (skipn m rest))).
  { pose proof (skip_bytes (map fint rest) [] m ltac:(rewrite map_length; lia)) as Sk. rewrite !app_nil_r, skipn_map in Sk. exact Sk. }
  rewrite Sk. rewrite <- (app_nil_r (word_bytes (map fint rest))). rewrite words_bytes by (try apply fint_words; rewrite map_length; lia). rewrite firstn_map.
  destruct (store_ok (nPols t) old vs ltac:(lia) (firstn m rest) a i j) as [a' [i' [j' [E1 [W1 [L1 I1]]]]]]; auto.
  { eapply Forall_impl; [|exact Fo]. cbn beta. intros col Hc. rewrite firstn_length. unfold totalSize in Ht. nia. }
  rewrite E1. cbn [bind].
  apply (IH _ (vs ++ firstn m rest)); auto.
  - rewrite app_length, firstn_length. lia.
  - rewrite !app_length, firstn_length, skipn_length. lia.
Qed.
Theorem load_short_hangs rd t (vals : list Fr) : aligned rd -> shaped t -> (length vals < totalSize t)%nat ->
  load rd t (word_bytes (map fint vals)) = Hang.
Proof.
  intros Al [L F] H. unfold load. rewrite (load_hang rd t (p_array t) Al L F _ 0 [] vals (p_array t) 0 0 0); auto.
  - split; [reflexivity|]. intros j i _. destruct (i * nPols t + j)%nat; reflexivity.
  - unfold totalSize in H. lia.
Qed.

(** ** the buffer handed to the prover *)
Theorem write_buff_spec t : shaped t -> (0 < nPols t)%nat -> write_buff t = Ok (map e_from (rowmajor (nPols t) (p_n t) (p_array t))).
Proof.
  intros S H. unfold write_buff. rewrite (proj2 (Nat.eqb_neq _ _)) by lia.
  rewrite (mapM_ok _ (fun ij => e_from (cellv (p_array t) (snd ij) (fst ij)))).
  - rewrite rowmajor_prod, map_map. reflexivity.
  - intros x Hx. apply list_prod_in in Hx. rewrite (at_ok t) by (auto; lia). reflexivity.
Qed.

(** ** a read that splits a word *)
Definition split_t : pols := mkPols 1 2 [[fof 1; fof 2]].
Definition split_rd (s : nat) : nat := match s with O => 9 | _ => 8 end.
Lemma split_reads : bind (save split_t) (load split_rd split_t) = Hang /\ bind (save split_t) (load (fun _ => 16)%nat split_t) = Ok split_t.
Proof. split; vm_compute; reflexivity. Qed.
