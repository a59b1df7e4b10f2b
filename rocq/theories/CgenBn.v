(* The on-chain circuit's transcript against the verifier's over the large field. *)
From Verif Require Import Base GlModel FrField ListAux HashModel HashProof TranscriptProof BnModel TranscriptBn
  CircModel CircProof CircMore CgenModel CgenProof.
From Coq Require Import String List Znumtheory.
Import ListNotations.
Open Scope nat_scope.

Definition word3 (m : Z) : list Z := [m mod 2 ^ 64; m / 2 ^ 64 mod 2 ^ 64; m / 2 ^ 128 mod 2 ^ 64]%Z.

Section BN.
Variables r rinv : Z.
Hypothesis r_prime : prime r.
Hypothesis r_big : (2 ^ 192 <= r)%Z.
Variable hash_ex : list Z -> Z -> nat -> res (list Z).
Variable permq : list Z -> Z -> list Z.
Hypothesis perm_len : forall i s, List.length (permq i s) = 17.
Hypothesis hash_ok : forall i s n, List.length i = 16 -> n <= 17 -> hash_ex i s n = Ok (firstn n (permq i s)).
Variable cperm : list Z -> Z -> list Z.
Notation qv := (q_value r rinv).
Hypothesis perm_rel : forall i s, map qv (permq i s) = cperm (map qv i) (qv s).

(* the calls correspond, the named signals being the values of the absorbed elements *)
Definition fedq (val : sgn -> Z) (o : gop) (e : qev) : Prop :=
  match o, e with
  | OPut a l, QPut es => Forall2 (fun n e => exists w, put_value r e = Ok w /\ qv w = val (SName n)) (put_names a l) es
  | OField _, QField => True
  | OPerm _ n b, QPerm n' b' => n = n' /\ b = b' /\ b <= 64
  | _, _ => False
  end.

(* what the circuit may read for what the verifier draws: the words or positions of numbers that are the
   verifier's modulo r and have at most 255 bits *)
Definition agrees (strict : bool) (val : name -> Z) (o : gop) (out : list Z) : Prop :=
  match o with
  | OPut _ _ => out = []
  | OField _ => exists m, (0 <= m < 2 ^ 255)%Z /\ reads val o = word3 m /\
      out = map (fun w => fint (fof w)) (word3 (m mod r))
  | OPerm _ n b => exists ms, Forall (fun m => 0 <= m < 2 ^ 255)%Z ms /\
      (strict = true -> reads val o = out) /\
      reads val o = map (fun i => group 253 ms (i * b) b) (seq 0 n) /\
      out = map (fun i => group 253 (map (fun m => m mod r)%Z ms) (i * b) b) (seq 0 n)
  end.

Variable strict : bool.
Variable val : sgn -> Z.
Hypothesis val0 : val SZero = 0%Z.
Hypothesis val_felt : forall s, felt r (val s).
Hypothesis strict_small : strict = true -> (r < 2 ^ 254)%Z.
Notation Q := (stm_q r cperm strict val).

Definition qsim (g : gq) (t : transcript_q) : Prop :=
  qv (q_state t) = val (gq_state g) /\ map qv (q_pending t) = map val (gq_pending g) /\
  map qv (q_out t) = map val (gq_out g) /\ gq_out3 g = [] /\ qwf t.

Lemma qv0 : qv 0 = 0%Z.
Proof. unfold q_value. rewrite Z.mul_0_l. apply Zmod_0_l. Qed.

Lemma newq_sim : qsim gq_new tq_new.
Proof.
  split; [cbn [q_state tq_new gq_state gq_new]; rewrite val0; exact qv0|]. split; [reflexivity|]. split; [reflexivity|].
  split; [reflexivity|]. split; [cbn; lia|reflexivity].
Qed.

Lemma updateq_sim g t : List.length (q_pending t) <= 16 -> qv (q_state t) = val (gq_state g) ->
  map qv (q_pending t) = map val (gq_pending g) ->
  Forall Q (gq_code (gq_update g)) -> qsim (gq_update g) (updq permq t).
Proof.
  intros L Es Ep F. cbn [gq_update gq_code] in F. apply Forall_app in F. destruct F as [_ F].
  pose proof (Forall_inv F) as HQ. cbn [stm_q hd] in HQ.
  assert (LP : List.length (gq_pending g) = List.length (q_pending t)).
  { rewrite <- (map_length val), <- Ep, map_length. reflexivity. }
  assert (EI : map val (gq_pending g ++ repeat SZero (16 - List.length (gq_pending g)))
    = map qv (q_pending t ++ repeat 0%Z (16 - List.length (q_pending t)))).
  { rewrite !map_app, Ep, LP. f_equal. generalize (16 - List.length (q_pending t)).
    induction n; cbn [repeat map]; [reflexivity|]. rewrite IHn, val0, qv0. reflexivity. }
  rewrite EI, <- Es, <- perm_rel in HQ.
  set (o := permq (q_pending t ++ repeat 0%Z (16 - List.length (q_pending t))) (q_state t)) in *.
  assert (LO : List.length (map qv o) = 17) by (rewrite map_length; apply perm_len).
  assert (EO : map val (map (SHash (gq_h g)) (seq 0 17)) = map qv o).
  { rewrite map_map. apply (map_seq_nth _ 0%Z); [exact LO|exact HQ]. }
  unfold qsim, updq. cbn [q_state q_pending q_out gq_update gq_state gq_pending gq_out gq_out3 map]. fold o.
  split; [|split; [reflexivity|split; [symmetry; exact EO|split; [reflexivity|]]]].
  - rewrite HQ by lia. destruct o as [|x l]; [discriminate LO|]. reflexivity.
  - split; cbn [q_pending q_out3 List.length]; [lia|reflexivity].
Qed.

Lemma addq_sim g t a v : qv v = val (SName a) -> qsim g t -> Forall Q (gq_code (gq_add g a)) -> qsim (gq_add g a) (addq permq t v).
Proof.
  intros Ev (Es & Ep & Eo & E3 & W1 & W2) F.
  assert (LP : List.length (gq_pending g) = List.length (q_pending t)).
  { rewrite <- (map_length val), <- Ep, map_length. reflexivity. }
  unfold gq_add, addq in *. cbn [gq_pending q_pending] in *. rewrite app_length in F. rewrite !app_length. rewrite LP in *.
  cbn [List.length] in *. destruct (Nat.eqb_spec (List.length (q_pending t) + 1) 16).
  - apply updateq_sim; cbn [q_state q_pending gq_state gq_pending]; [|exact Es| |exact F].
    + rewrite app_length. cbn [List.length]. lia.
    + rewrite !map_app, Ep. cbn [map]. rewrite Ev. reflexivity.
  - split; [exact Es|]. split; [cbn [q_pending gq_pending]; rewrite !map_app, Ep; cbn [map]; rewrite Ev; reflexivity|].
    split; [reflexivity|]. split; [reflexivity|]. split; [|reflexivity].
    cbn [q_pending]. rewrite app_length. cbn [List.length]. lia.
Qed.

(** *** statements only accumulate *)
Lemma updateq_mono g P : Forall P (gq_code (gq_update g)) -> Forall P (gq_code g).
Proof. cbn [gq_update gq_code]. intros F. apply Forall_app in F. apply F. Qed.

Lemma addq_mono g a P : Forall P (gq_code (gq_add g a)) -> Forall P (gq_code g).
Proof. unfold gq_add. cbn [gq_pending]. destruct (_ =? 16); [|auto]. intros F. apply updateq_mono in F. exact F. Qed.

Lemma putq_mono ns P : forall g, Forall P (gq_code (fold_left gq_add ns g)) -> Forall P (gq_code g).
Proof. induction ns as [|n ns IH]; intros g F; cbn [fold_left] in F; [exact F|]. apply (addq_mono g n). apply IH. exact F. Qed.

Lemma emitq_mono g l P : Forall P (gq_code (gq_emit g l)) -> Forall P (gq_code g) /\ Forall P l.
Proof. cbn [gq_emit gq_code]. apply Forall_app. Qed.

Definition gq_ready (g : gq) : gq := match gq_out g with [] => gq_update g | _ => g end.

Lemma ready_out g : exists s l, gq_out (gq_ready g) = s :: l.
Proof. unfold gq_ready. destruct (gq_out g) as [|s l] eqn:E; [cbn [gq_update gq_out seq map]; eauto|]. rewrite E. eauto. Qed.

Lemma ready_mono g P : Forall P (gq_code (gq_ready g)) -> Forall P (gq_code g).
Proof. unfold gq_ready. destruct (gq_out g); [apply updateq_mono|auto]. Qed.

Lemma get253_eq g : exists s l, gq_out (gq_ready g) = s :: l /\ let g1 := gq_ready g in
  gq_get253 g = Ok (s, mkGq (gq_state g1) (gq_pending g1) l (gq_out3 g1) (gq_h g1) (gq_n2b g1) (gq_split g1) (gq_code g1)).
Proof.
  destruct (ready_out g) as (s & l & E). exists s, l. split; [exact E|]. cbv zeta. unfold gq_get253.
  change (match gq_out g with [] => gq_update g | _ :: _ => g end) with (gq_ready g). rewrite E. reflexivity.
Qed.

(* three words come from one component when none is left over *)
Lemma gfield_eq g v : gq_out3 g = [] -> exists s l, gq_out (gq_ready g) = s :: l /\ let g1 := gq_ready g in let k := gq_split g1 in
  exists g', gq_field g v = Ok g' /\ gq_state g' = gq_state g1 /\ gq_pending g' = gq_pending g1 /\ gq_out g' = l /\ gq_out3 g' = [] /\
    gq_code g' = gq_code g1 ++ [GSplit k s; GAssign (NIdx v 0) (SSplit k 0); GAssign (NIdx v 1) (SSplit k 1); GAssign (NIdx v 2) (SSplit k 2)].
Proof.
  intros E3. destruct (ready_out g) as (s & l & E). exists s, l. split; [exact E|]. cbv zeta.
  assert (E1 : exists g2, gq_get1 g = Ok (SSplit (gq_split (gq_ready g)) 0, g2) /\
    g2 = mkGq (gq_state (gq_ready g)) (gq_pending (gq_ready g)) l [SSplit (gq_split (gq_ready g)) 1; SSplit (gq_split (gq_ready g)) 2]
      (gq_h (gq_ready g)) (gq_n2b (gq_ready g)) (S (gq_split (gq_ready g))) (gq_code (gq_ready g) ++ [GSplit (gq_split (gq_ready g)) s])).
  { eexists. split; [|reflexivity]. unfold gq_get1. unfold gq_pop3 at 1. rewrite E3. unfold gq_ready in *. destruct (gq_out g) as [|x y] eqn:Eo.
    - unfold gq_refill at 1. rewrite Eo. unfold gq_pop3 at 1. rewrite E3. unfold gq_refill. rewrite E. reflexivity.
    - unfold gq_refill. rewrite Eo. rewrite Eo in E. injection E as <- <-. reflexivity. }
  destruct E1 as (g2 & E1 & Eg2). unfold gq_field. rewrite E1. cbn [bind]. rewrite Eg2.
  unfold gq_get1 at 1. unfold gq_pop3 at 1. cbn [gq_emit gq_out3 gq_out gq_state gq_pending gq_h gq_n2b gq_split gq_code bind].
  unfold gq_get1 at 1. unfold gq_pop3 at 1. cbn [gq_emit gq_out3 gq_out gq_state gq_pending gq_h gq_n2b gq_split gq_code bind].
  eexists. split; [reflexivity|]. cbn [gq_emit gq_out3 gq_out gq_state gq_pending gq_h gq_n2b gq_split gq_code].
  split; [reflexivity|]. split; [reflexivity|]. split; [reflexivity|]. split; [reflexivity|].
  rewrite <- !app_assoc. reflexivity.
Qed.

Lemma n2bsq_mono n P : forall g ks g', gq_n2bs n g = Ok (ks, g') -> Forall P (gq_code g') -> Forall P (gq_code g).
Proof.
  induction n as [|n IH]; intros g ks g' H F; cbn [gq_n2bs] in H.
  - assert (g = g') by congruence. subst. exact F.
  - destruct (get253_eq g) as (s & l & _ & E). cbv zeta in E. rewrite E in H. cbn [bind] in H.
    destruct (gq_n2bs n _) as [[ks1 g2]| | |] eqn:E2 in H; try discriminate H. cbn [bind fst snd] in H.
    assert (g2 = g') by congruence. subst g2. apply IH in E2; [|exact F]. cbn [gq_code] in E2.
    apply Forall_app in E2. apply ready_mono. apply E2.
Qed.

Lemma gq_step_mono g o g' P : gq_out3 g = [] -> gq_step g o = Ok g' -> Forall P (gq_code g') -> Forall P (gq_code g).
Proof.
  destruct o as [a l|v|v n b]; cbn [gq_step]; intros E3 H F.
  - assert (g' = gq_put g a l) as -> by congruence. exact (putq_mono _ _ _ F).
  - destruct (gfield_eq g v E3) as (s & l & E & g2 & E2 & _ & _ & _ & _ & EC). assert (g2 = g') by congruence. subst g2.
    rewrite EC in F. apply Forall_app in F. apply ready_mono. apply F.
  - unfold gq_perm in H. destruct (n * b =? 0); [discriminate H|].
    destruct (gq_n2bs _ g) as [[ks g1]| | |] eqn:E; try discriminate H. cbn [bind fst snd] in H.
    destruct (row_stms _ _ _ _ _ _ _ _) as [l| | |]; try discriminate H. cbn [bind] in H.
    assert (g' = gq_emit g1 l) as -> by congruence. apply emitq_mono in F. destruct F as [F _]. exact (n2bsq_mono _ _ _ _ _ E F).
Qed.

Lemma n2bs_out3 n : forall g ks g', gq_out3 g = [] -> gq_n2bs n g = Ok (ks, g') -> gq_out3 g' = [].
Proof.
  induction n as [|n IH]; intros g ks g' E3 H; cbn [gq_n2bs] in H.
  - assert (g = g') by congruence. subst. exact E3.
  - destruct (get253_eq g) as (s & l & _ & E). cbv zeta in E. rewrite E in H. cbn [bind] in H.
    destruct (gq_n2bs n _) as [[ks1 g2]| | |] eqn:E2 in H; try discriminate H. cbn [bind fst snd] in H.
    assert (g2 = g') by congruence. subst g2. apply IH in E2; [exact E2|]. cbn [gq_out3]. unfold gq_ready.
    destruct (gq_out g); [reflexivity|exact E3].
Qed.

Lemma put_out3_nil ns : forall g, gq_out3 g = [] -> gq_out3 (fold_left gq_add ns g) = [].
Proof.
  induction ns as [|n ns IH]; intros g E; cbn [fold_left]; [exact E|]. apply IH. unfold gq_add. cbn [gq_pending].
  destruct (_ =? 16); reflexivity.
Qed.

Lemma step_out3 g o g' : gq_out3 g = [] -> gq_step g o = Ok g' -> gq_out3 g' = [].
Proof.
  destruct o as [a l|v|v n b]; cbn [gq_step]; intros E3 H.
  - assert (g' = gq_put g a l) as -> by congruence. apply put_out3_nil. exact E3.
  - destruct (gfield_eq g v E3) as (s & l & E & g2 & E2 & _ & _ & _ & O3 & _). congruence.
  - unfold gq_perm in H. destruct (n * b =? 0); [discriminate H|].
    destruct (gq_n2bs _ g) as [[ks g1]| | |] eqn:E; try discriminate H. cbn [bind fst snd] in H.
    destruct (row_stms _ _ _ _ _ _ _ _) as [l| | |]; try discriminate H. cbn [bind] in H.
    assert (g' = gq_emit g1 l) as -> by congruence. cbn [gq_emit gq_out3]. exact (n2bs_out3 _ _ _ _ E3 E).
Qed.

Lemma gq_run_mono h P : forall g g', gq_out3 g = [] -> gq_run h g = Ok g' -> Forall P (gq_code g') -> Forall P (gq_code g).
Proof.
  induction h as [|o h IH]; intros g g' E3 H F; unfold gq_run in H; cbn [foldM] in H.
  - assert (g = g') by congruence. subst. exact F.
  - destruct (gq_step g o) as [g1| | |] eqn:E; try discriminate H. cbn [bind] in H.
    apply (gq_step_mono _ _ _ _ E3 E). exact (IH g1 g' (step_out3 _ _ _ E3 E) H F).
Qed.

(** *** the draws *)
Lemma ready_sim g t : qsim g t -> Forall Q (gq_code (gq_ready g)) -> forall s l, gq_out (gq_ready g) = s :: l ->
  val s = qv (fst (getq permq t)) /\
  qv (q_state (snd (getq permq t))) = val (gq_state (gq_ready g)) /\
  map qv (q_pending (snd (getq permq t))) = map val (gq_pending (gq_ready g)) /\
  map qv (q_out (snd (getq permq t))) = map val l /\ qwf (snd (getq permq t)) /\ gq_out3 (gq_ready g) = [].
Proof.
  intros S F s l E. pose proof S as (Es & Ep & Eo & E3 & W).
  pose proof (proj2 (getq_eq hash_ex permq perm_len hash_ok t W)) as WG.
  assert (K : exists t1, getq permq t = (hd 0%Z (q_out t1), mkTq (q_state t1) (q_pending t1) (tl (q_out t1)) []) /\ qsim (gq_ready g) t1).
  { unfold getq, gq_ready in *. destruct (gq_out g) as [|x y] eqn:EO.
    - cbn [map] in Eo. destruct (q_out t); [|discriminate Eo]. eexists. split; [reflexivity|].
      apply updateq_sim; [destruct W; lia|exact Es|exact Ep|exact F].
    - destruct (q_out t) as [|z w] eqn:EQ; [discriminate Eo|]. exists t. rewrite EQ. split; [reflexivity|exact S]. }
  destruct K as (t1 & EG & (Es1 & Ep1 & Eo1 & E31 & W1)). rewrite EG in *. cbn [fst snd q_state q_pending q_out] in *.
  rewrite E in Eo1. destruct (q_out t1) as [|z w]; [discriminate Eo1|]. cbn [map hd tl] in *.
  injection Eo1 as Ez Ew. split; [symmetry; exact Ez|]. split; [exact Es1|]. split; [exact Ep1|]. split; [exact Ew|].
  split; [exact WG|exact E31].
Qed.

Lemma eqr_eq a b : felt r a -> felt r b -> eqr r a b -> a = b.
Proof. unfold felt, eqr. intros Ha Hb H. rewrite !Z.mod_small in H by assumption. exact H. Qed.

Lemma split_sound s k : BN1toGL3 r (val s) (val (SSplit k 0), val (SSplit k 1), val (SSplit k 2)) ->
  exists m, (0 <= m < 2 ^ 255)%Z /\ (m mod r = val s)%Z /\ [val (SSplit k 0); val (SSplit k 1); val (SSplit k 2)] = word3 m.
Proof.
  intros [bs [(L & B & F & E) (E0 & E1 & E2)]]. apply (bits_01 r) in B; [|exact r_prime].
  pose proof (bsum_range _ B) as R. rewrite L in R. pose proof (words_bits bs B) as W. exists (bsum bs).
  split; [exact R|]. split; [unfold eqr in E; rewrite E; apply Z.mod_small; exact F|].
  pose proof (words3_felt r (bsum bs)) as WF. assert (H64 : (2 ^ 64 <= r)%Z) by (apply (Z.le_trans _ (2 ^ 192)); [vm_compute; discriminate|exact r_big]).
  specialize (WF H64). rewrite <- W in WF. destruct WF as (G0 & G1 & G2).
  apply eqr_eq in E0; [|apply val_felt|exact G0]. apply eqr_eq in E1; [|apply val_felt|exact G1]. apply eqr_eq in E2; [|apply val_felt|exact G2].
  unfold words3 in W. pose proof (f_equal fst (f_equal fst W)) as W0. pose proof (f_equal snd (f_equal fst W)) as W1.
  pose proof (f_equal snd W) as W2. cbn [fst snd] in W0, W1, W2. unfold word3. rewrite E0, E1, E2, W0, W1, W2. reflexivity.
Qed.

Lemma split3_word3 v : map fint (split3 r rinv v) = map (fun w => fint (fof w)) (word3 (qv v)).
Proof. unfold split3, word3. cbn [seq map]. change (2 ^ (64 * Z.of_nat 0))%Z with 1%Z. rewrite Z.div_1_r. reflexivity. Qed.

Lemma fieldq_sim g t v g' : qsim g t -> gq_field g v = Ok g' -> Forall Q (gq_code g') ->
  exists out t', qstep r rinv hash_ex QField t = Ok (out, t') /\ agrees strict (fun x => val (SName x)) (OField v) out /\ qsim g' t'.
Proof.
  intros S H F. pose proof S as (_ & _ & _ & E3 & W).
  destruct (gfield_eq g v E3) as (s & l & E & g2 & E2 & G1 & G2 & G3 & G4 & EC). assert (g2 = g') by congruence. subst g2.
  rewrite EC in F. apply Forall_app in F. destruct F as [F A].
  destruct (ready_sim g t S F s l E) as (Ev & Es & Ep & Eo & WG & _).
  pose proof (Forall_inv A) as A0. cbn [stm_q] in A0. apply Forall_inv_tail in A.
  pose proof (Forall_inv A) as A1. cbn [stm_q] in A1. apply Forall_inv_tail in A.
  pose proof (Forall_inv A) as A2. cbn [stm_q] in A2. apply Forall_inv_tail in A.
  pose proof (Forall_inv A) as A3. cbn [stm_q] in A3.
  destruct (field_eq r rinv hash_ex permq perm_len hash_ok t W) as (a & b & c & ES & EF).
  exists [fint a; fint b; fint c], (snd (getq permq t)). cbn [qstep]. rewrite EF. cbn [bind].
  split; [reflexivity|]. split.
  - destruct (split_sound s _ A0) as (m & Hm & Em & EW). exists m. split; [exact Hm|]. cbn [reads]. rewrite A1, A2, A3.
    split; [exact EW|]. rewrite Em, Ev. rewrite <- split3_word3, ES. reflexivity.
  - split; [rewrite G1; exact Es|]. split; [rewrite G2; exact Ep|]. split; [rewrite G3; exact Eo|]. split; [exact G4|exact WG].
Qed.

Lemma bsum_testbit bs : Forall bit01 bs -> forall i, i < List.length bs -> Z.b2z (Z.testbit (bsum bs) (Z.of_nat i)) = nth i bs 0%Z.
Proof.
  induction 1 as [|b bs Hb H IH]; intros i Hi; cbn [List.length] in Hi; [lia|]. cbn [bsum]. rewrite Z.add_comm.
  assert (EB : exists x, b = Z.b2z x) by (destruct Hb as [-> | ->]; [exists false|exists true]; reflexivity). destruct EB as [x ->].
  destruct i as [|i]; cbn [nth].
  - rewrite Z.testbit_0_r. reflexivity.
  - rewrite Nat2Z.inj_succ, Z.testbit_succ_r by lia. apply IH. lia.
Qed.

Lemma bits_sound k s : Q (GBits k s) -> exists m, (0 <= m < 2 ^ 255)%Z /\ (m mod r = val s)%Z /\ (strict = true -> m = val s) /\
  forall i, i < 254 -> val (SBits k i) = Z.b2z (Z.testbit m (Z.of_nat i)).
Proof.
  cbn [stm_q]. destruct strict.
  - intros H. exists (val s). pose proof (val_felt s) as FS. unfold felt in FS. pose proof (strict_small eq_refl).
    split; [|split; [apply Z.mod_small; exact FS|split; [reflexivity|exact H]]].
    assert (2 ^ 254 < 2 ^ 255)%Z by reflexivity. lia.
  - intros (L & B & F & E). apply (bits_01 r) in B; [|exact r_prime]. pose proof (bsum_range _ B) as R. rewrite L in R.
    exists (bsum (map (fun i => val (SBits k i)) (seq 0 255))). split; [exact R|].
    split; [unfold eqr in E; rewrite E; apply Z.mod_small; exact F|]. split; [discriminate|].
    intros i Hi. rewrite bsum_testbit by (try exact B; rewrite L; lia).
    rewrite (nth_indep _ 0%Z (val (SBits k 0))) by (rewrite L; lia). rewrite (map_nth (fun i => val (SBits k i))).
    rewrite seq_nth by lia. reflexivity.
Qed.

Lemma n2bsq_sim n : forall g t ks g', qsim g t -> gq_n2bs n g = Ok (ks, g') -> Forall Q (gq_code g') ->
  exists fs t' ms, get_many253 hash_ex n t = Ok (fs, t') /\ qsim g' t' /\ List.length ks = n /\ List.length ms = n /\
    map qv fs = map (fun m => m mod r)%Z ms /\ Forall (fun m => 0 <= m < 2 ^ 255)%Z ms /\ (strict = true -> map qv fs = ms) /\
    forall c i, c < n -> i < 254 -> val (SBits (nth c ks 0) i) = Z.b2z (Z.testbit (nth c ms 0%Z) (Z.of_nat i)).
Proof.
  induction n as [|n IH]; intros g t ks g' S H F; cbn [gq_n2bs] in H.
  - exists [], t, []. assert (ks = []) as -> by congruence. assert (g = g') as <- by congruence.
    split; [reflexivity|]. split; [exact S|]. repeat (split; [reflexivity|]). split; [constructor|]. split; [reflexivity|].
    intros c i Hc. lia.
  - destruct (get253_eq g) as (s & l & EO & E). cbv zeta in E. rewrite E in H. cbn [bind] in H.
    destruct (gq_n2bs n _) as [[ks1 g2]| | |] eqn:E2 in H; try discriminate H. cbn [bind fst snd] in H.
    assert (g2 = g') by congruence. subst g2. cbn [gq_n2b] in H. assert (ks = gq_n2b (gq_ready g) :: ks1) as -> by congruence. clear H.
    pose proof (n2bsq_mono _ _ _ _ _ E2 F) as F1. cbn [gq_code] in F1. apply Forall_app in F1. destruct F1 as [F1 A1].
    apply Forall_inv in A1. destruct (bits_sound _ _ A1) as (m & Hm & Em & Ems & Bm).
    destruct (ready_sim g t S F1 s l EO) as (Ev & Es & Ep & Eo & WG & E3).
    pose proof S as (_ & _ & _ & _ & W). destruct (getq_eq hash_ex permq perm_len hash_ok t W) as [EG _].
    cbn [gq_state gq_pending gq_out gq_out3 gq_h gq_n2b gq_split gq_code] in E2.
    eapply (IH _ (snd (getq permq t))) in E2; [|split; [exact Es|split; [exact Ep|split; [exact Eo|split; [exact E3|exact WG]]]]|exact F].
    destruct E2 as (fs & t' & ms & G & S' & L1 & L2 & EM & FM & ST & B).
    exists (fst (getq permq t) :: fs), t', (m :: ms). cbn [get_many253]. rewrite EG. destruct (getq permq t) as [v t1]. cbn [bind fst snd] in *.
    rewrite G. cbn [bind].
    split; [reflexivity|]. split; [exact S'|]. cbn [List.length map]. split; [congruence|]. split; [congruence|].
    split; [rewrite EM, Em, Ev; reflexivity|]. split; [constructor; assumption|].
    split; [intros ET; rewrite (ST ET), (Ems ET), Ev; reflexivity|].
    intros [|c] i Hc Hi; cbn [nth]; [exact (Bm i Hi)|]. apply B; [lia|exact Hi].
Qed.

Lemma permq_sim g t v n b g' : b <= 64 -> qsim g t -> gq_perm g v n b = Ok g' -> Forall Q (gq_code g') ->
  exists out t', qstep r rinv hash_ex (QPerm n b) t = Ok (out, t') /\ agrees strict (fun x => val (SName x)) (OPerm v n b) out /\ qsim g' t'.
Proof.
  intros Hb S H F. unfold gq_perm in H. cbn [qstep agrees]. unfold get_permutations_q.
  destruct (Nat.eqb_spec (n * b) 0) as [Z0|Z0]; [discriminate H|].
  set (w := 253) in *. assert (K : w <> 0) by discriminate. assert (KS : w < 254) by (unfold w; lia).
  assert (WZ : 253%Z = Z.of_nat w) by reflexivity. rewrite WZ. clearbody w. clear WZ.
  set (m := (n * b - 1) / w + 1) in *.
  destruct (gq_n2bs m g) as [[ks g1]| | |] eqn:E; try discriminate H. cbn [bind fst snd] in H.
  destruct (row_stms w ks v b n 0 0 0) as [l| | |] eqn:ER; try discriminate H. cbn [bind] in H.
  assert (g' = gq_emit g1 l) as -> by congruence. clear H.
  destruct (emitq_mono _ _ _ F) as [F1 A].
  destruct (n2bsq_sim m g t ks g1 S E F1) as (fs & t' & ms & G & S' & L1 & L2 & EM & FM & ST & B). rewrite G. cbn [bind].
  assert (DB : forall i, i < n * b -> i / w < m).
  { intros i Hi. unfold m. assert (i / w <= (n * b - 1) / w) by (apply Nat.div_le_mono; [exact K|lia]).
    generalize dependent (i / w). generalize ((n * b - 1) / w). clear. intros. lia. }
  assert (LF : List.length (map qv fs) = m) by (rewrite EM, map_length; exact L2).
  assert (HB : forall i, i < n * b -> (0 + i) / w < List.length (map qv fs)).
  { intros i Hi. rewrite LF. cbn [Nat.add]. apply DB. exact Hi. }
  pose proof (groups_eq w K (map qv fs) b Hb n 0 HB) as EG.
  rewrite Nat.div_0_l, Nat.mod_0_l in EG by exact K. change (Z.of_nat 0) with 0%Z in EG. rewrite EG. cbn [bind].
  destruct (row_stms_ok w ks v b K n 0 0) as (l' & El & Hl).
  { intros i Hi. rewrite L1. cbn [Nat.add]. apply DB. exact Hi. }
  rewrite Nat.div_0_l, Nat.mod_0_l in El by exact K. assert (l' = l) by congruence. subst l'. clear El.
  eexists. exists t'. split; [reflexivity|]. split; [|exact S']. cbn [Nat.add].
  assert (RD : reads (fun x => val (SName x)) (OPerm v n b) = map (fun i => group w ms (i * b) b) (seq 0 n)).
  { cbn [reads]. apply map_ext_in. intros i Hi. apply in_seq in Hi.
    rewrite group_bsum. f_equal. apply map_ext_in. intros j Hj. apply in_seq in Hj.
    specialize (Hl i j ltac:(lia) ltac:(lia)). rewrite Forall_forall in A. pose proof (A _ Hl) as HA. cbn [stm_q] in HA.
    cbn [Nat.add] in *. assert (IJ : i * b + j < n * b) by nia.
    rewrite HA, B; [reflexivity|apply DB; exact IJ|].
    pose proof (Nat.mod_upper_bound (i * b + j) w K). lia. }
  exists ms. split; [exact FM|]. split; [|split; [exact RD|rewrite EM; reflexivity]].
  intros ET. rewrite RD. rewrite (ST ET). reflexivity.
Qed.

Lemma putq_sim ns : forall es g t, Forall2 (fun n e => exists w, put_value r e = Ok w /\ qv w = val (SName n)) ns es ->
  qsim g t -> Forall Q (gq_code (fold_left gq_add ns g)) ->
  exists t', put_q r hash_ex t es = Ok t' /\ qsim (fold_left gq_add ns g) t'.
Proof.
  induction ns as [|n ns IH]; intros es g t HF S F; inversion HF; subst; cbn [fold_left] in *; unfold put_q; cbn [foldM].
  - exists t. split; [reflexivity|exact S].
  - destruct H1 as (w & Ew & Vw). rewrite Ew. cbn [bind]. pose proof S as (_ & _ & _ & _ & W).
    destruct (addq_eq hash_ex permq perm_len hash_ok t w W) as [EA _]. rewrite EA. cbn [bind].
    apply (IH l' (gq_add g n) (addq permq t w) H3); [|exact F].
    apply addq_sim; [exact Vw|exact S|]. exact (putq_mono ns _ _ F).
Qed.

Lemma stepq_sim g t o e g' : fedq val o e -> qsim g t -> gq_step g o = Ok g' -> Forall Q (gq_code g') ->
  exists out t', qstep r rinv hash_ex e t = Ok (out, t') /\ agrees strict (fun x => val (SName x)) o out /\ qsim g' t'.
Proof.
  intros HF S H F. destruct o as [a l|v|v n b]; destruct e as [es| | |n' b']; cbn [fedq] in HF; try contradiction; cbn [gq_step] in *.
  - assert (g' = gq_put g a l) as -> by congruence. unfold gq_put in *.
    destruct (putq_sim _ es g t HF S F) as (t' & E & S'). exists [], t'. cbn [qstep agrees]. rewrite E. split; [reflexivity|]. split; [reflexivity|exact S'].
  - exact (fieldq_sim g t v g' S H F).
  - destruct HF as (<- & <- & Hb). exact (permq_sim g t v n b g' Hb S H F).
Qed.

Theorem bn_transcript h : forall evs g t g', Forall2 (fedq val) h evs -> qsim g t -> gq_run h g = Ok g' -> Forall Q (gq_code g') ->
  exists outs t', qrun r rinv hash_ex evs t = Ok (outs, t') /\ Forall2 (agrees strict (fun x => val (SName x))) h outs.
Proof.
  induction h as [|o h IH]; intros evs g t g' HF S H F; inversion HF; subst; cbn [qrun].
  - exists [], t. split; [reflexivity|constructor].
  - unfold gq_run in H. cbn [foldM] in H. destruct (gq_step g o) as [g1| | |] eqn:E; try discriminate H. cbn [bind] in H.
    pose proof S as (_ & _ & _ & E3 & _).
    pose proof (gq_run_mono h Q g1 g' (step_out3 _ _ _ E3 E) H F) as F1.
    destruct (stepq_sim g t o y g1 H2 S E F1) as (out & t1 & E1 & A1 & S1). rewrite E1. cbn [bind fst snd].
    destruct (IH l' g1 t1 g' H4 S1 H F) as (outs & t' & E2 & A2). rewrite E2. cbn [bind fst snd].
    exists (out :: outs), t'. split; [reflexivity|]. constructor; assumption.
Qed.
End BN.
