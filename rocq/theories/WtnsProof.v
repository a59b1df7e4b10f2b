(* The witness file format: writing, reading, and what the readers accept. *)
From Verif Require Import Base ListAux BinModel BinProof.
Open Scope Z_scope.
Open Scope res_scope.

(* the file of n elements encoded in [body] *)
Definition wtns_file (version n : Z) (body : list Z) : list Z :=
  [119; 116; 110; 115] ++ le_bytes 4 version ++ le_bytes 4 2 ++ le_bytes 4 1 ++ le_bytes 8 40 ++ le_bytes 4 32
  ++ le_bytes 32 bn_prime ++ le_bytes 4 n ++ le_bytes 4 2 ++ le_bytes 8 ((n * 32) mod 2 ^ 32) ++ body.

Lemma forallb_eq : forall a b : list Z, length a = length b ->
  forallb (fun p => fst p =? snd p) (combine a b) = true -> a = b.
Proof.
  induction a as [|x a IH]; intros [|y b] L H; try discriminate L; [reflexivity|].
  cbn [combine forallb] in H. apply andb_true_iff in H. destruct H as [H1 H2].
  apply Z.eqb_eq in H1. cbn [fst snd] in H1. subst. f_equal. apply IH; [|exact H2]. injection L as L. exact L.
Qed.
Lemma forallb_refl : forall a : list Z, forallb (fun p => fst p =? snd p) (combine a a) = true.
Proof. induction a; [reflexivity|]. cbn [combine forallb fst snd]. rewrite Z.eqb_refl, IHa. reflexivity. Qed.

Lemma header_ok : forall oc v n body, 0 <= v <= 2 -> 0 <= n < 2 ^ 32 ->
  load_wtns_header oc (wtns_file v n body) = if oc && (2 ^ 27 <=? n) then Panic else Ok (n, body).
Proof.
  intros oc v n body Hv Hn. unfold load_wtns_header, wtns_file.
  rewrite (read_exact_app 4) by reflexivity. cbn [bind].
  change [119; 116; 110; 115] with wtns_magic. rewrite forallb_refl. cbn [negb].
  change (le_bytes 4 v) with (u32 v). change (le_bytes 4 2) with (u32 2). change (le_bytes 4 1) with (u32 1).
  change (le_bytes 4 32) with (u32 32). change (le_bytes 4 n) with (u32 n). change (le_bytes 8 40) with (u64 40).
  change (le_bytes 8 ((n * 32) mod 2 ^ 32)) with (u64 ((n * 32) mod 2 ^ 32)).
  rewrite read_u32_app by lia. cbn [bind].
  replace (2 <? v) with false by (symmetry; apply Z.ltb_ge; lia).
  rewrite read_u32_app by lia. cbn [bind]. change (2 =? 2) with true. cbn [negb].
  rewrite read_u32_app by lia. cbn [bind]. change (1 =? 1) with true. cbn [negb].
  rewrite read_u64_app by lia. cbn [bind]. change (40 =? 4 + 32 + 4) with true. cbn [negb].
  rewrite read_u32_app by lia. cbn [bind]. change (32 =? 32) with true. cbn [negb].
  rewrite (read_exact_app 32) by (rewrite le_bytes_len; reflexivity). cbn [bind].
  rewrite forallb_refl. cbn [negb].
  rewrite read_u32_app by exact Hn. cbn [bind].
  rewrite read_u32_app by lia. cbn [bind]. change (2 =? 2) with true. cbn [negb].
  pose proof (Z.mod_pos_bound (n * 32) (2 ^ 32) ltac:(lia)) as B.
  rewrite read_u64_app by lia. cbn [bind].
  unfold mul32. destruct (n * 32 <? 2 ^ 32) eqn:E.
  - apply Z.ltb_lt in E. replace (2 ^ 27 <=? n) with false by (symmetry; apply Z.leb_gt; lia).
    rewrite andb_false_r. cbn [bind]. rewrite (Z.mod_small (n * 32)) by lia. rewrite Z.eqb_refl. reflexivity.
  - apply Z.ltb_ge in E. replace (2 ^ 27 <=? n) with true by (symmetry; apply Z.leb_le; lia).
    rewrite andb_true_r. destruct oc; [reflexivity|]. cbn [bind]. rewrite Z.eqb_refl. reflexivity.
Qed.

Ltac rd32 H Hl v l' E :=
  match type of H with bind (read_u32 ?l) _ = _ =>
    destruct (read_u32 l) as [[v l']| | |] eqn:E; try discriminate H; cbn [bind] in H;
    apply read_u32_inv in E; [|exact Hl];
    let K := fresh in pose proof Hl as K; rewrite (proj1 E) in K; apply Forall_app_r in K; clear Hl; rename K into Hl end.
Ltac rd64 H Hl v l' E :=
  match type of H with bind (read_u64 ?l) _ = _ =>
    destruct (read_u64 l) as [[v l']| | |] eqn:E; try discriminate H; cbn [bind] in H;
    apply read_u64_inv in E; [|exact Hl];
    let K := fresh in pose proof Hl as K; rewrite (proj1 E) in K; apply Forall_app_r in K; clear Hl; rename K into Hl end.
Ltac gd H E :=
  match type of H with (if negb ?c then Err else _) = _ => destruct c eqn:E; cbn [negb] in H; [|discriminate H] end.

Lemma header_inv : forall oc l n r, Forall isbyte l -> load_wtns_header oc l = Ok (n, r) ->
  exists v, 0 <= v <= 2 /\ 0 <= n < 2 ^ 32 /\ l = wtns_file v n r /\ (oc = true -> n < 2 ^ 27).
Proof.
  intros oc l n r Hl H. unfold load_wtns_header in H.
  destruct (read_exact 4 l) as [[mg l1]| | |] eqn:E0; try discriminate H. cbn [bind] in H.
  apply read_exact_inv in E0; [|lia]. destruct E0 as [E0 L0].
  pose proof Hl as Hl1. rewrite E0 in Hl1. apply Forall_app_r in Hl1.
  gd H G0. apply forallb_eq in G0; [|cbn [wtns_magic length]; lia].
  rd32 H Hl1 v l2 E1. destruct (2 <? v) eqn:G1; [discriminate H|]. apply Z.ltb_ge in G1.
  rd32 H Hl1 ns l3 E2. gd H G2. apply Z.eqb_eq in G2.
  rd32 H Hl1 st l4 E3. gd H G3. apply Z.eqb_eq in G3.
  rd64 H Hl1 sz l5 E4. gd H G4. apply Z.eqb_eq in G4.
  rd32 H Hl1 fs l6 E5. gd H G5. apply Z.eqb_eq in G5.
  destruct (read_exact fs l6) as [[pr l7]| | |] eqn:E6; try discriminate H. cbn [bind] in H.
  apply read_exact_inv in E6; [|lia]. destruct E6 as [E6 L6].
  gd H G6. apply forallb_eq in G6; [|rewrite le_bytes_len; lia].
  rewrite E6 in Hl1. apply Forall_app_r in Hl1.
  rd32 H Hl1 wl l8 E7.
  rd32 H Hl1 st2 l9 E8. gd H G8. apply Z.eqb_eq in G8.
  rd64 H Hl1 sz2 l10 E9.
  destruct (mul32 oc wl fs) as [body| | |] eqn:M; try discriminate H. cbn [bind] in H.
  gd H G9. apply Z.eqb_eq in G9.
  assert (n = wl) by congruence. assert (r = l10) by congruence. subst n r.
  unfold mul32 in M. rewrite G5 in M.
  exists v. split; [lia|]. split; [lia|].
  assert (HM : body = (wl * 32) mod 2 ^ 32 /\ (oc = true -> wl < 2 ^ 27)).
  { destruct (wl * 32 <? 2 ^ 32) eqn:Q.
    - apply Z.ltb_lt in Q. assert (body = wl * 32) as -> by congruence.
      rewrite (Z.mod_small (wl * 32)) by lia. split; [reflexivity|lia].
    - destruct oc; [discriminate M|]. split; [congruence|intro K; discriminate K]. }
  split; [|apply HM].
  unfold wtns_file. rewrite E0, G0.
  rewrite (proj1 E1), (proj1 E2), (proj1 E3), (proj1 E4), (proj1 E5), E6, (proj1 E7), (proj1 E8), (proj1 E9).
  rewrite G2, G3, G4, G5, G6, G8, G9, (proj1 HM). reflexivity.
Qed.

(** ** the elements *)
Lemma words_bytes : forall ws, Forall isword ws -> concat (map u32 ws) = le_bytes (4 * length ws) (words_val ws).
Proof.
  induction 1 as [|w ws Hw Hs IH]; [reflexivity|].
  cbn [map concat length words_val]. rewrite IH. unfold isword in Hw.
  replace (4 * S (length ws))%nat with (4 + 4 * length ws)%nat by lia.
  set (V := words_val ws). generalize (4 * length ws)%nat as k. intros k.
  assert (G : forall m n (a b : Z), 0 <= a < 256 ^ Z.of_nat m ->
            le_bytes (m + n) (a + 256 ^ Z.of_nat m * b) = le_bytes m a ++ le_bytes n b).
  { clear. induction m; intros n a b Ha.
    - change (256 ^ Z.of_nat 0) with 1 in *. cbn [Nat.add le_bytes app]. f_equal. lia.
    - rewrite pow256_S in *. cbn [Nat.add le_bytes app].
      replace (a + 256 * 256 ^ Z.of_nat m * b) with (a + (256 ^ Z.of_nat m * b) * 256) by ring.
      rewrite Z.mod_add, Z.div_add by lia. f_equal. apply IHm.
      split; [apply Z.div_pos; lia|apply Z.div_lt_upper_bound; lia]. }
  unfold u32. symmetry. apply (G 4%nat k w V). exact Hw.
Qed.
Lemma group_bytes : forall k w, length w = (8 * k)%nat -> Forall isword w ->
  concat (map u32 w) = concat (map (le_bytes 32) (map words_val (groups k 8 w))).
Proof.
  induction k as [|k IH]; intros w L F.
  - destruct w; [reflexivity|discriminate L].
  - cbn [groups map concat]. rewrite <- (firstn_skipn 8 w) at 1. rewrite map_app, concat_app.
    assert (F' : Forall isword (firstn 8 w) /\ Forall isword (skipn 8 w))
      by (apply Forall_app; rewrite firstn_skipn; exact F).
    rewrite (words_bytes (firstn 8 w)) by apply F'. rewrite firstn_length, Nat.min_l by lia.
    f_equal. apply IH; [rewrite skipn_length; lia|apply F'].
Qed.
Lemma words_val_bound : forall l, Forall isword l -> 0 <= words_val l < 2 ^ (32 * Z.of_nat (length l)).
Proof.
  intros l H. rewrite words_val_rev, <- rev_length. apply from_array32_bound. apply Forall_rev. exact H.
Qed.
Lemma groups_bound : forall k w, length w = (8 * k)%nat -> Forall isword w ->
  Forall (fun v => 0 <= v < 2 ^ 256) (map words_val (groups k 8 w)).
Proof.
  induction k as [|k IH]; intros w L F; [constructor|].
  assert (F' : Forall isword (firstn 8 w) /\ Forall isword (skipn 8 w))
    by (apply Forall_app; rewrite firstn_skipn; exact F).
  cbn [groups map]. constructor.
  - pose proof (words_val_bound (firstn 8 w) (proj1 F')) as B. rewrite firstn_length, Nat.min_l in B by lia. exact B.
  - apply IH; [rewrite skipn_length; lia|apply F'].
Qed.
Lemma groups_len : forall k n w, length (groups k n w) = k.
Proof. induction k; intros; cbn [groups length]; [reflexivity|rewrite IHk; reflexivity]. Qed.

Lemma read_fields : forall q vs r fuel, Forall (fun v => 0 <= v < 2 ^ 256) vs -> (length vs <= fuel)%nat ->
  read_many_fuel fuel (read_field q 32) (Z.of_nat (length vs)) (concat (map (le_bytes 32) vs) ++ r)
  = if forallb (fun v => v <? q) vs then Ok (vs, r) else Err.
Proof.
  intros q. induction vs as [|v vs IH]; intros r fuel HF Hf.
  - destruct fuel; reflexivity.
  - destruct fuel as [|fuel]; [cbn [length] in Hf; lia|]. inversion HF; subst.
    cbn [map concat forallb]. rewrite <- app_assoc. cbn [read_many_fuel].
    replace (Z.of_nat (length (v :: vs)) <=? 0) with false by (symmetry; apply Z.leb_gt; cbn [length]; lia).
    unfold read_field at 1. rewrite read_exact_app by (rewrite le_bytes_len; reflexivity). cbn [bind].
    rewrite le_val_small by assumption. destruct (v <? q); [|reflexivity]. cbn [bind andb].
    replace (Z.of_nat (length (v :: vs)) - 1) with (Z.of_nat (length vs)) by (cbn [length]; lia).
    rewrite IH by (auto; cbn [length] in Hf; lia).
    destruct (forallb _ vs); reflexivity.
Qed.
Lemma body_len : forall vs, length (concat (map (le_bytes 32) vs)) = (32 * length vs)%nat.
Proof. induction vs; cbn [map concat length]; [reflexivity|]. rewrite app_length, le_bytes_len, IHvs. lia. Qed.

Lemma load_file : forall oc q v vs r, 0 <= v <= 2 -> Z.of_nat (length vs) < 2 ^ 32 ->
  (oc = true -> Z.of_nat (length vs) < 2 ^ 27) -> Forall (fun v => 0 <= v < 2 ^ 256) vs ->
  load_witness oc q (wtns_file v (Z.of_nat (length vs)) (concat (map (le_bytes 32) vs) ++ r))
  = if forallb (fun v => v <? q) vs then Ok vs else Err.
Proof.
  intros oc q v vs r Hv Hn Ho HF. unfold load_witness.
  rewrite header_ok by lia.
  replace (oc && (2 ^ 27 <=? Z.of_nat (length vs))) with false.
  2:{ destruct oc; [|reflexivity]. symmetry. cbn [andb]. apply Z.leb_gt. apply Ho. reflexivity. }
  cbn [bind]. unfold read_many. rewrite read_fields; [|exact HF|rewrite app_length, body_len; lia].
  destruct (forallb _ vs); reflexivity.
Qed.
Lemma load_inv : forall oc q l vs, Forall isbyte l -> load_witness oc q l = Ok vs ->
  exists v r, 0 <= v <= 2 /\ Z.of_nat (length vs) < 2 ^ 32 /\ (oc = true -> Z.of_nat (length vs) < 2 ^ 27)
    /\ Forall (fun x => 0 <= x < q) vs /\ l = wtns_file v (Z.of_nat (length vs)) (concat (map (le_bytes 32) vs) ++ r).
Proof.
  intros oc q l vs Hl H. unfold load_witness in H.
  destruct (load_wtns_header oc l) as [[n body]| | |] eqn:E; try discriminate H. cbn [bind] in H.
  destruct (header_inv oc l n body Hl E) as (v & Hv & Hn & EL & Ho).
  destruct (read_many (read_field q 32) n body) as [[ws r]| | |] eqn:E2; try discriminate H. cbn [bind] in H.
  assert (ws = vs) by congruence. subst ws.
  assert (HB : Forall isbyte body).
  { rewrite EL in Hl. unfold wtns_file in Hl. repeat (apply Forall_app_r in Hl). exact Hl. }
  apply (read_many_fuel_inv _ (le_bytes 32) (fun x => 0 <= x < q)) in E2; [|intros l' a r' Hl' Hr; apply (read_field_inv q 32); assumption|exact HB|lia].
  destruct E2 as (-> & HF & HL). subst n.
  exists v, r. repeat split; auto; lia.
Qed.
Lemma load_cases : forall oc q l, (exists vs, load_witness oc q l = Ok vs) \/ load_witness oc q l = Err
  \/ (oc = true /\ load_witness oc q l = Panic).
Proof.
  intros oc q l. unfold load_witness.
  assert (HC : (exists n r, load_wtns_header oc l = Ok (n, r)) \/ load_wtns_header oc l = Err
               \/ (oc = true /\ load_wtns_header oc l = Panic)).
  { unfold load_wtns_header.
    destruct (read_exact_cases 4 l) as [(b & r & ->)| ->]; cbn [bind]; [|auto].
    destruct (negb _); [auto|].
    destruct (read_u32_cases r) as [(v1 & r1 & ->)| ->]; cbn [bind]; [|auto]. destruct (2 <? v1); [auto|].
    destruct (read_u32_cases r1) as [(v2 & r2 & ->)| ->]; cbn [bind]; [|auto]. destruct (negb _); [auto|].
    destruct (read_u32_cases r2) as [(v3 & r3 & ->)| ->]; cbn [bind]; [|auto]. destruct (negb _); [auto|].
    destruct (read_u64_cases r3) as [(v4 & r4 & ->)| ->]; cbn [bind]; [|auto]. destruct (negb _); [auto|].
    destruct (read_u32_cases r4) as [(v5 & r5 & ->)| ->]; cbn [bind]; [|auto]. destruct (negb _); [auto|].
    destruct (read_exact_cases v5 r5) as [(b6 & r6 & ->)| ->]; cbn [bind]; [|auto]. destruct (negb _); [auto|].
    destruct (read_u32_cases r6) as [(v7 & r7 & ->)| ->]; cbn [bind]; [|auto].
    destruct (read_u32_cases r7) as [(v8 & r8 & ->)| ->]; cbn [bind]; [|auto]. destruct (negb _); [auto|].
    destruct (read_u64_cases r8) as [(v9 & r9 & ->)| ->]; cbn [bind]; [|auto].
    unfold mul32. destruct (_ <? 2 ^ 32); cbn [bind].
    - destruct (negb _); [auto|left; eauto].
    - destruct oc; cbn [bind]; [auto|]. destruct (negb _); [auto|left; eauto]. }
  destruct HC as [(n & r & ->)|[->|[-> ->]]]; cbn [bind]; [|auto|auto].
  destruct (read_many_oe (read_field q 32) (read_field_shrinks q 32 ltac:(lia)) (read_field_oe q 32) n r) as [[[ws r'] ->]| ->];
    cbn [bind]; [left; eauto|auto].
Qed.

(** ** the writer *)
Lemma save_ok : forall oc v w, (oc = true -> (Z.of_nat (length w) mod 2 ^ 32) / 8 < 2 ^ 27) ->
  save_witness oc 8 v bn_prime w
  = Ok (wtns_file v ((Z.of_nat (length w) mod 2 ^ 32) / 8) (concat (map u32 w))).
Proof.
  intros oc v w Ho. unfold save_witness.
  change (mul32 oc 8 4) with (@Ok Z 32). cbn [bind].
  change (add32 oc 32 8) with (@Ok Z 40). cbn [bind].
  change (0 <? bn_prime) with true. cbn [negb].
  replace (byte_len bn_prime =? 32) with true by (vm_compute; reflexivity). cbn [negb].
  change (8 =? 0) with false. cbv iota.
  set (n := (Z.of_nat (length w) mod 2 ^ 32) / 8) in *.
  change (Z.to_nat 32) with 32%nat.
  assert (HM : mul32 oc n 32 = Ok ((n * 32) mod 2 ^ 32)).
  { unfold mul32. destruct (n * 32 <? 2 ^ 32) eqn:E.
    - apply Z.ltb_lt in E. rewrite Z.mod_small; [reflexivity|]. split; [|exact E].
      assert (0 <= n) by (apply Z.div_pos; [apply Z.mod_pos_bound; lia|lia]). lia.
    - apply Z.ltb_ge in E. destruct oc; [|reflexivity]. specialize (Ho eq_refl). lia. }
  rewrite HM. cbn [bind]. reflexivity.
Qed.

Lemma roundtrip : forall oc q version k w, 0 <= version <= 2 -> Forall isword w -> length w = (8 * k)%nat ->
  Z.of_nat k < (if oc : bool then 2 ^ 27 else 2 ^ 29) ->
  exists file vs, save_witness oc 8 version bn_prime w = Ok file /\ witness_values 8 k w = Ok vs /\
    load_witness oc q file = if forallb (fun v => v <? q) vs then Ok vs else Err.
Proof.
  intros oc q version k w Hv Hw L Hk.
  assert (EN : (Z.of_nat (length w) mod 2 ^ 32) / 8 = Z.of_nat k).
  { rewrite L. rewrite Z.mod_small by (destruct oc; lia).
    replace (Z.of_nat (8 * k)) with (Z.of_nat k * 8) by lia. apply Z.div_mul. lia. }
  exists (wtns_file version (Z.of_nat k) (concat (map u32 w))), (map words_val (groups k 8 w)).
  split; [|split].
  - rewrite save_ok; rewrite EN; [reflexivity|]. destruct oc; [intros _; exact Hk|intro K; discriminate K].
  - apply witness_values_ok. lia.
  - rewrite (group_bytes k) by assumption.
    assert (LG : length (map words_val (groups k 8 w)) = k) by (rewrite map_length; apply groups_len).
    rewrite <- (app_nil_r (concat _)). rewrite <- LG at 1.
    apply load_file; [exact Hv| | |apply groups_bound; assumption].
    + rewrite LG. destruct oc; lia.
    + rewrite LG. intros ->. exact Hk.
Qed.

(* elements to words and back: any list of field elements can be written *)
Lemma groups_concat : forall vs, Forall (fun v => 0 <= v < 2 ^ 256) vs ->
  map words_val (groups (length vs) 8 (concat (map (le_words 8) vs))) = vs.
Proof.
  induction 1 as [|v vs Hv _ IH]; [reflexivity|]. cbn [length groups map concat].
  rewrite take_app, drop_app by apply le_words_len. rewrite IH. f_equal. apply le_words_val. exact Hv.
Qed.
Lemma words_all : forall vs, Forall isword (concat (map (le_words 8) vs)).
Proof. induction vs; cbn [map concat]; [constructor|]. apply Forall_app. split; [apply le_words_word|assumption]. Qed.
Lemma words_len : forall vs, length (concat (map (le_words 8) vs)) = (8 * length vs)%nat.
Proof. induction vs; cbn [map concat length]; [reflexivity|]. rewrite app_length, le_words_len, IHvs. lia. Qed.
Lemma elements_roundtrip : forall oc q version vs, 0 <= version <= 2 -> q <= 2 ^ 256 ->
  Forall (fun v => 0 <= v < q) vs -> Z.of_nat (length vs) < (if oc : bool then 2 ^ 27 else 2 ^ 29) ->
  (do file <- save_witness oc 8 version bn_prime (concat (map (le_words 8) vs)); load_witness oc q file) = Ok vs.
Proof.
  intros oc q version vs Hv Hq HF HL.
  destruct (roundtrip oc q version (length vs) (concat (map (le_words 8) vs)) Hv (words_all vs) (words_len vs) HL)
    as (file & vs' & -> & Ev & El).
  cbn [bind]. rewrite El. rewrite witness_values_ok in Ev by (rewrite words_len; lia).
  rewrite groups_concat in Ev by (eapply Forall_impl; [|exact HF]; cbv beta; intros; lia).
  assert (vs' = vs) by congruence. subst vs'.
  replace (forallb (fun v => v <? q) vs) with true; [reflexivity|]. symmetry. apply forallb_forall.
  intros x Hx. rewrite Forall_forall in HF. apply Z.ltb_lt. apply HF. exact Hx.
Qed.

(* 2^29 elements: the number of words wraps to zero *)
Lemma large_lost : forall oc q version, 0 <= version <= 2 ->
  exists vs file, Z.of_nat (length vs) = 2 ^ 29 /\ Forall (fun v => v = 0) vs /\
    save_witness oc 8 version bn_prime (concat (map (le_words 8) vs)) = Ok file /\ load_witness oc q file = Ok [].
Proof.
  intros oc q version Hv.
  remember (Z.to_nat (2 ^ 29)) as N eqn:EN. assert (HN : Z.of_nat N = 2 ^ 29) by (rewrite EN; apply Z2Nat.id; lia).
  clear EN. set (vs := repeat 0 N). set (w := concat (map (le_words 8) vs)).
  exists vs, (wtns_file version 0 (concat (map u32 w))).
  assert (LW : (Z.of_nat (length w) mod 2 ^ 32) / 8 = 0).
  { unfold w. rewrite words_len. unfold vs. rewrite repeat_length.
    replace (Z.of_nat (8 * N)) with (1 * 2 ^ 32) by lia. rewrite Z.mod_mul by lia. reflexivity. }
  split; [unfold vs; rewrite repeat_length; exact HN|].
  split; [apply Forall_forall; intros x Hx; exact (repeat_spec _ _ _ Hx)|].
  split; [pose proof (save_ok oc version w) as S0; rewrite LW in S0; apply S0; lia|].
  unfold load_witness. rewrite header_ok by lia.
  replace (oc && (2 ^ 27 <=? 0)) with false by (destruct oc; reflexivity).
  cbn [bind]. unfold read_many. cbn [read_many_fuel]. reflexivity.
Qed.

(* the header is refused for another field, or another version *)
Lemma save_other_refused : forall oc q n32 version prime w file, 0 <= n32 < 2 ^ 27 -> 0 <= version < 2 ^ 32 -> prime < 256 ^ (n32 * 4) ->
  Forall isword w -> save_witness oc n32 version prime w = Ok file -> (prime <> bn_prime \/ 2 < version) ->
  load_witness oc q file = Err.
Proof.
  intros oc q n32 version prime w file Hn Hv Hp Hw HS HO.
  unfold save_witness in HS.
  assert (M1 : mul32 oc n32 4 = Ok (n32 * 4)).
  { unfold mul32. replace (n32 * 4 <? 2 ^ 32) with true by (symmetry; apply Z.ltb_lt; lia). reflexivity. }
  rewrite M1 in HS. cbn [bind] in HS.
  assert (M2 : add32 oc (n32 * 4) 8 = Ok (n32 * 4 + 8)).
  { unfold add32. replace (n32 * 4 + 8 <? 2 ^ 32) with true by (symmetry; apply Z.ltb_lt; lia). reflexivity. }
  rewrite M2 in HS. cbn [bind] in HS.
  destruct (negb (0 <? prime)) eqn:EP; [discriminate HS|]. apply negb_false_iff, Z.ltb_lt in EP.
  destruct (negb (byte_len prime =? n32 * 4)); [discriminate HS|].
  destruct (n32 =? 0); [discriminate HS|].
  destruct (mul32 oc _ (n32 * 4)) as [body| | |]; try discriminate HS. cbn [bind] in HS.
  match type of HS with Ok ?t = _ => assert (EF : file = t) by congruence end. clear HS.
  unfold load_witness, load_wtns_header. rewrite EF.
  rewrite (read_exact_app 4) by reflexivity. cbn [bind]. rewrite forallb_refl. cbn [negb].
  rewrite read_u32_app by lia. cbn [bind].
  destruct (2 <? version) eqn:EV; [reflexivity|]. apply Z.ltb_ge in EV.
  destruct HO as [HO|HO]; [|lia].
  rewrite read_u32_app by lia. cbn [bind]. change (2 =? 2) with true. cbn [negb].
  rewrite read_u32_app by lia. cbn [bind]. change (1 =? 1) with true. cbn [negb].
  rewrite read_u64_app by lia. cbn [bind].
  destruct (negb (n32 * 4 + 8 =? 4 + 32 + 4)) eqn:E1; [reflexivity|].
  apply negb_false_iff, Z.eqb_eq in E1.
  rewrite read_u32_app by lia. cbn [bind].
  destruct (negb (n32 * 4 =? 32)) eqn:E2; [reflexivity|]. apply negb_false_iff, Z.eqb_eq in E2. rewrite E2.
  change (Z.to_nat 32) with 32%nat.
  rewrite (read_exact_app 32) by (rewrite le_bytes_len; reflexivity). cbn [bind].
  destruct (forallb _ _) eqn:E3; [|reflexivity]. exfalso. apply HO.
  apply forallb_eq in E3; [|rewrite !le_bytes_len; reflexivity].
  apply (f_equal le_val) in E3. rewrite E2 in Hp.
  rewrite (le_val_small 32 prime) in E3 by (change (256 ^ Z.of_nat 32) with (256 ^ 32); lia).
  rewrite E3. vm_compute. reflexivity.
Qed.

(** ** the other reader *)
Lemma skip_fields : forall q vs r fuel, Forall (fun v => 0 <= v < 2 ^ 256) vs -> (length vs <= fuel)%nat ->
  read_skip_fuel fuel q (Z.of_nat (length vs)) (concat (map (le_bytes 32) vs) ++ r) = filter (fun v => v <? q) vs.
Proof.
  intros q. induction vs as [|v vs IH]; intros r fuel HF Hf.
  - destruct fuel; reflexivity.
  - destruct fuel as [|fuel]; [cbn [length] in Hf; lia|]. inversion HF; subst.
    cbn [map concat filter]. rewrite <- app_assoc. cbn [read_skip_fuel].
    replace (Z.of_nat (length (v :: vs)) <=? 0) with false by (symmetry; apply Z.leb_gt; cbn [length]; lia).
    rewrite read_exact_app by (rewrite le_bytes_len; reflexivity).
    rewrite le_val_small by assumption.
    replace (Z.of_nat (length (v :: vs)) - 1) with (Z.of_nat (length vs)) by (cbn [length]; lia).
    rewrite IH by (auto; cbn [length] in Hf; lia). destruct (v <? q); reflexivity.
Qed.
Lemma load_gpu_file : forall oc q v vs r, 0 <= v <= 2 -> Z.of_nat (length vs) < 2 ^ 32 ->
  (oc = true -> Z.of_nat (length vs) < 2 ^ 27) -> Forall (fun v => 0 <= v < 2 ^ 256) vs ->
  load_witness_gpu oc q (wtns_file v (Z.of_nat (length vs)) (concat (map (le_bytes 32) vs) ++ r))
  = Ok (filter (fun v => v <? q) vs).
Proof.
  intros oc q v vs r Hv Hn Ho HF. unfold load_witness_gpu.
  rewrite header_ok by lia.
  replace (oc && (2 ^ 27 <=? Z.of_nat (length vs))) with false.
  2:{ destruct oc; [|reflexivity]. symmetry. cbn [andb]. apply Z.leb_gt. apply Ho. reflexivity. }
  cbn [bind]. rewrite skip_fields; [reflexivity|exact HF|rewrite app_length, body_len; lia].
Qed.
(* where the first reader accepts, the second agrees *)
Lemma gpu_agrees : forall oc q l vs, q <= 2 ^ 256 -> Forall isbyte l -> load_witness oc q l = Ok vs -> load_witness_gpu oc q l = Ok vs.
Proof.
  intros oc q l vs Hq Hl H. destruct (load_inv oc q l vs Hl H) as (v & r & Hv & Hn & Ho & HF & ->).
  rewrite load_gpu_file; auto; [|eapply Forall_impl; [|exact HF]; cbv beta; intros; lia].
  f_equal. clear -HF. induction HF as [|x vs Hx _ IH]; [reflexivity|]. cbn [filter].
  replace (x <? q) with true by (symmetry; apply Z.ltb_lt; lia). rewrite IH. reflexivity.
Qed.
Lemma trunc_read : forall k q, 5 < q ->
  read_many_fuel (S (S k)) (read_field q 32) 3 (le_bytes 32 5 ++ [1]) = Err /\
  read_skip_fuel (S (S k)) q 3 (le_bytes 32 5 ++ [1]) = [5].
Proof.
  intros k q H1. cbn [read_many_fuel read_skip_fuel].
  change (3 <=? 0) with false. cbv iota.
  unfold read_field. rewrite (read_exact_app 32) by (rewrite le_bytes_len; reflexivity). cbn [bind].
  rewrite (le_val_small 32 5) by (split; [lia|reflexivity]).
  replace (5 <? q) with true by (symmetry; apply Z.ltb_lt; lia). cbn [bind].
  change (3 - 1 <=? 0) with false. cbv iota.
  change (read_exact 32 [1]) with (@Err (list Z * list Z)). cbn [bind]. split; reflexivity.
Qed.
(* an element out of range in the middle disappears, and so do truncated ones *)
Lemma gpu_drops : forall q, 5 < q -> q <= 2 ^ 256 - 1 ->
  (let file := wtns_file 2 3 (concat (map (le_bytes 32) [5; q; 4])) in
   load_witness false q file = Err /\ load_witness_gpu false q file = Ok [5; 4]) /\
  (let file := wtns_file 2 3 (le_bytes 32 5 ++ [1]) in
   load_witness false q file = Err /\ load_witness_gpu false q file = Ok [5]).
Proof.
  intros q H1 H2. split.
  - assert (HF : Forall (fun v => 0 <= v < 2 ^ 256) [5; q; 4]) by (repeat constructor; lia).
    cbv zeta. rewrite <- (app_nil_r (concat _)).
    pose proof (load_file false q 2 [5; q; 4] [] ltac:(lia) ltac:(cbn [length]; lia) ltac:(cbn [length]; lia) HF) as L1.
    pose proof (load_gpu_file false q 2 [5; q; 4] [] ltac:(lia) ltac:(cbn [length]; lia) ltac:(cbn [length]; lia) HF) as L2.
    change (Z.of_nat (length [5; q; 4])) with 3 in *. rewrite L1, L2. cbn [forallb filter].
    rewrite Z.ltb_irrefl. replace (5 <? q) with true by (symmetry; apply Z.ltb_lt; lia).
    replace (4 <? q) with true by (symmetry; apply Z.ltb_lt; lia). split; reflexivity.
  - cbv zeta. unfold load_witness, load_witness_gpu. rewrite header_ok by lia. cbn [andb bind].
    unfold read_many. rewrite app_length, le_bytes_len. change (S (32 + length [1])) with (S (S 32)).
    destruct (trunc_read 32 q H1) as [-> ->]. split; reflexivity.
Qed.
Lemma load_iff : forall oc q l vs, Forall isbyte l -> q <= 2 ^ 256 ->
  load_witness oc q l = Ok vs <->
  exists v r, 0 <= v <= 2 /\ Z.of_nat (length vs) < 2 ^ 32 /\ (oc = true -> Z.of_nat (length vs) < 2 ^ 27)
    /\ Forall (fun x => 0 <= x < q) vs /\ l = wtns_file v (Z.of_nat (length vs)) (concat (map (le_bytes 32) vs) ++ r).
Proof.
  intros oc q l vs Hl Hq. split; [apply load_inv; exact Hl|].
  intros (v & r & Hv & Hn & Ho & HF & ->). rewrite load_file; auto.
  - replace (forallb (fun v0 => v0 <? q) vs) with true; [reflexivity|]. symmetry. apply forallb_forall.
    intros x Hx. rewrite Forall_forall in HF. apply Z.ltb_lt. apply HF. exact Hx.
  - eapply Forall_impl; [|exact HF]. cbv beta. intros. lia.
Qed.
Lemma wtns_bytes_example : Forall isbyte (wtns_file 1 2 (concat (map (le_bytes 32) [3; 4]) ++ [99])).
Proof.
  unfold wtns_file. repeat (apply Forall_app; split); try apply le_bytes_byte.
  - repeat constructor; unfold isbyte; lia.
  - cbn [map concat]. repeat (apply Forall_app; split); try apply le_bytes_byte. constructor.
  - repeat constructor; unfold isbyte; lia.
Qed.
Lemma memory_roundtrip : forall v n, 0 <= v < 2 ^ (32 * Z.of_nat n) ->
  (do ws <- input_words v n; witness_values n 1 ws) = Ok [v].
Proof.
  intros v n H. destruct (input_words_ok v n H) as (ws & -> & L & _ & V). cbn [bind].
  rewrite witness_values_ok by lia. cbn [groups map]. rewrite firstn_all2 by lia. rewrite V. reflexivity.
Qed.
