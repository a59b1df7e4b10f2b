(* From an R1CS to the compressor's table: what a table satisfying the gate identities and the copy
   constraints proves. *)
From Verif Require Import Base GlModel FrField Cubic PolyModel Roots ListAux PlonkModel PlonkProof CompressorModel CompressorPil ConnectProof PlaceProof BudgetProof.
From Coq Require Import Permutation Field.
Open Scope nat_scope.
Add Field FrFS : Fr_field.

(* ---- an unused wire of a gate has zero coefficients ---- *)
Definition zgate (n : nat) (g : PlonkGate) : Prop :=
  (g_sl g = 0 -> g_qm g = f0 /\ g_ql g = f0) /\ (g_sr g = 0 -> g_qm g = f0 /\ g_qr g = f0) /\ (g_so g = 0 -> g_qo g = f0) /\
  g_sl g < n /\ g_sr g < n /\ g_so g < n.
Lemma zgate_mono n m g : n <= m -> zgate n g -> zgate m g.
Proof. unfold zgate. intuition lia. Qed.
Lemma zgates_mono n m l : n <= m -> Forall (zgate n) l -> Forall (zgate m) l.
Proof. intros H. apply Forall_impl. intros g. apply zgate_mono, H. Qed.

Definition okst (st : state) : Prop := let '(pc, _, n) := st in 1 <= n /\ Forall (zgate n) pc.
Definition stn (st : state) : nat := snd st.
Definition nzk (n : nat) (cs : list (nat * Fr)) : Prop := Forall (fun kv => fst kv <> 0 /\ fst kv < n) cs.

Lemma split_const_nz n lc : forall k cs k' cs', below n lc -> nzk n cs -> split_const lc k cs = (k', cs') -> nzk n cs'.
Proof.
  induction lc as [|[key val] r IH]; intros k cs k' cs' B N H; cbn [split_const] in H; [injection H as <- <-; exact N|].
  inversion B; subst. cbn [fst] in *. destruct (Nat.eqb_spec key 0); [apply (IH _ _ _ _ H3 N H)|]. destruct (feqb val f0); [apply (IH _ _ _ _ H3 N H)|].
  eapply IH; [exact H3| |exact H]. apply Forall_app. split; [exact N|]. constructor; [cbn; auto|constructor].
Qed.
Lemma reduce_loop_z fuel max : forall cs st cs' st', okst st -> nzk (stn st) cs -> reduce_loop fuel max cs st = Ok (cs', st') ->
  okst st' /\ nzk (stn st') cs' /\ stn st <= stn st'.
Proof.
  induction fuel as [|fuel IH]; intros cs st cs' st' O N H; cbn [reduce_loop] in H.
  - destruct (length cs <=? max); [|discriminate]. injection H as <- <-. auto.
  - destruct (length cs <=? max); [injection H as <- <-; auto|].
    destruct cs as [|[sl v1] [|[sr v2] rest]]; try discriminate. destruct st as [[pc pa] so]. unfold stn in *. cbn [snd] in *. destruct O as [O1 O2].
    inversion N as [|? ? [B1 B2] N']; subst. inversion N' as [|? ? [B3 B4] N'']; subst. cbn [fst] in *.
    apply IH in H.
    + cbn [snd] in H. intuition lia.
    + cbn. split; [lia|]. apply Forall_app. split; [apply (zgates_mono so); [lia|exact O2]|]. constructor; [|constructor].
      unfold zgate. cbn. repeat split; try lia; intros; try lia.
    + cbn [snd]. apply Forall_app. split; [eapply Forall_impl; [|exact N'']; cbn; intros; lia|]. constructor; [cbn; lia|constructor].
Qed.
Lemma reduce_coefs_z lc max st k s co st' : okst st -> below (stn st) lc -> reduce_coefs lc max st = Ok ((k, s, co), st') ->
  okst st' /\ stn st <= stn st' /\ Forall2 (fun i x => (i = 0 -> x = f0) /\ i < stn st') s co.
Proof.
  intros O B H. unfold reduce_coefs in H. destruct (split_const lc f0 []) as [k0 cs] eqn:E.
  apply (split_const_nz (stn st)) in E; [|exact B|constructor].
  destruct (reduce_loop _ _ _ _) as [[cs' st1]| | |] eqn:R; cbn [bind] in H; try discriminate. injection H as <- <- <- <-.
  apply reduce_loop_z in R; [|exact O|exact E]. destruct R as [R1 [R2 R3]]. split; [exact R1|]. split; [exact R3|].
  apply Forall2_app.
  - clear - R2. induction R2 as [|[i x] cs [A B] F IH]; cbn [map]; constructor; [|exact IH]. cbn [fst snd] in *. split; [contradiction|exact B].
  - assert (1 <= stn st1) by (destruct st1 as [[? ?] ?]; apply R1). clear - H. induction (max - length cs') as [|m IH]; cbn [repeat]; constructor; [|exact IH]. split; [auto|lia].
Qed.
Lemma F2_get {A B} (P : A -> B -> Prop) l m i a b : Forall2 P l m -> vget l i = Ok a -> vget m i = Ok b -> P a b.
Proof.
  intros F. revert i. induction F; intros i E1 E2; destruct i; cbn in *; try discriminate.
  - injection E1 as <-. injection E2 as <-. assumption.
  - eapply IHF; eassumption.
Qed.
Ltac bi H := apply bind_ok in H; let a := fresh "x" in let E := fresh "E" in destruct H as [a [E H]]; cbv beta in H.

Lemma sum_z lc st st' : okst st -> below (stn st) lc -> add_constraint_sum lc st = Ok st' -> okst st' /\ stn st <= stn st'.
Proof.
  intros O B H. unfold add_constraint_sum in H. bi H. destruct x as [[[ck s] co] st1]. apply reduce_coefs_z in E; [|exact O|exact B].
  destruct E as [O1 [L1 F]]. bi H. bi H. bi H. bi H. bi H. bi H. destruct st1 as [[pc pa] n]. injection H as <-. unfold stn in *. cbn [snd] in *.
  destruct O1 as [O1 O2]. split; [|exact L1]. split; [exact O1|]. apply Forall_app. split; [exact O2|]. constructor; [|constructor].
  pose proof (F2_get _ _ _ _ _ _ F E E2) as [Q1 Q1']. pose proof (F2_get _ _ _ _ _ _ F E0 E3) as [Q2 Q2']. pose proof (F2_get _ _ _ _ _ _ F E1 E4) as [Q3 Q3']. unfold zgate. cbn. intuition.
Qed.
Lemma mul_z la lb lc st st' : okst st -> below (stn st) la -> below (stn st) lb -> below (stn st) lc -> add_constraint_mul la lb lc st = Ok st' -> okst st' /\ stn st <= stn st'.
Proof.
  intros O B1 B2 B3 H. unfold add_constraint_mul in H. bi H. destruct x as [[[ak sa] ca] st1]. apply reduce_coefs_z in E; [|exact O|exact B1]. destruct E as [O1 [L1 F1]].
  bi H. destruct x as [[[bk sb] cb] st2]. apply reduce_coefs_z in E; [|exact O1|eapply below_mono; [|exact B2]; exact L1]. destruct E as [O2 [L2 F2]].
  bi H. destruct x as [[[ck sc] cc] st3]. apply reduce_coefs_z in E; [|exact O2|eapply below_mono; [|exact B3]; lia]. destruct E as [O3 [L3 F3]].
  bi H. bi H. bi H. bi H. bi H. bi H. destruct st3 as [[pc pa] n]. injection H as <-. unfold stn in *. cbn [snd] in *.
  destruct O3 as [P1 P2]. split; [|lia]. split; [exact P1|]. apply Forall_app. split; [exact P2|]. constructor; [|constructor].
  pose proof (F2_get _ _ _ _ _ _ F1 E E2) as [Q1 Q1']. pose proof (F2_get _ _ _ _ _ _ F2 E0 E3) as [Q2 Q2']. pose proof (F2_get _ _ _ _ _ _ F3 E1 E4) as [Q3 Q3'].
  unfold zgate. cbn [g_sl g_sr g_so g_qm g_ql g_qr g_qo]. repeat split; try lia.
  - rewrite Q1 by assumption. ring.
  - rewrite Q1 by assumption. ring.
  - rewrite Q2 by assumption. ring.
  - rewrite Q2 by assumption. ring.
  - intros. rewrite Q3 by assumption. ring.
Qed.
Lemma process_z n0 c st st' : 1 <= n0 <= stn st -> wf_constraint n0 c -> okst st -> process c st = Ok st' -> okst st' /\ stn st <= stn st'.
Proof.
  intros [Hn0 Hn]. destruct c as [[a b] cc]. intros [[Na Ba] [[Nb Bb] [Nc Bc]]] O. unfold process.
  destruct (to_be_map_ok a Na) as [ma [Ea [Sa [Va Fa]]]]. destruct (to_be_map_ok b Nb) as [mb [Eb [Sb [Vb Fb]]]].
  destruct (to_be_map_ok cc Nc) as [mc [Ec [Sc [Vc Fc]]]]. rewrite Ea, Eb, Ec. cbn [bind].
  destruct (get_lc_type_spec ma Sa) as [ta [Ga Ta]]. destruct (get_lc_type_spec mb Sb) as [tb [Gb Tb]]. rewrite Ga, Gb.
  assert (Ma : below (stn st) (normalize ma)) by (apply normalize_Forall; apply (below_mono n0); [exact Hn|]; apply Fa; exact Ba).
  assert (Mb : below (stn st) (normalize mb)) by (apply normalize_Forall; apply (below_mono n0); [exact Hn|]; apply Fb; exact Bb).
  assert (Mc : below (stn st) mc) by (apply (below_mono n0); [exact Hn|]; apply Fc; exact Bc).
  assert (Mc' : below (stn st) (normalize mc)) by (apply normalize_Forall; exact Mc).
  destruct ta, tb; intros H; try (apply sum_z in H; [exact H|exact O|exact Mc']).
  - bi H. apply sum_z in H; [exact H|exact O|apply (join_Forall (fun k => k < stn st)); assumption].
  - bi H. apply sum_z in H; [exact H|exact O|apply (join_Forall (fun k => k < stn st)); assumption].
  - bi H. apply sum_z in H; [exact H|exact O|apply (join_Forall (fun k => k < stn st)); assumption].
  - apply mul_z in H; [exact H|exact O|exact Ma|exact Mb|exact Mc].
Qed.
Lemma fold_z n0 cs : forall st st', 1 <= n0 <= stn st -> Forall (wf_constraint n0) cs -> okst st -> foldM (fun st c => process c st) cs st = Ok st' -> okst st'.
Proof.
  induction cs as [|c cs IH]; intros st st' Hn F O H; cbn [foldM] in H; [injection H as <-; exact O|]. inversion F; subst. bi H.
  apply (process_z n0) in E; try assumption. destruct E as [O1 L1]. eapply IH; [|exact H3|exact O1|exact H]. lia.
Qed.
Lemma gates_z r pc pa : 1 <= num_variables r -> Forall (wf_constraint (num_variables r)) (constraints r) -> r1cs2plonk r = Ok (pc, pa) ->
  Forall (zgate (num_variables r + length pa)) pc.
Proof.
  intros Hn HW H. destruct (fold_process (constraints r) [] [] _ _ Hn (le_n _) HW) as [G [A [E _]]].
  unfold r1cs2plonk in H. rewrite E in H. cbn [bind app] in H. injection H as <- <-.
  apply (fold_z (num_variables r)) in E; [|cbn; lia|exact HW|cbn; split; [exact Hn|constructor]]. apply E.
Qed.

(* ---- what happens below a row ---- *)
Definition same_below (r : nat) (t t' : tables) : Prop :=
  forall q, q < r -> (forall c, sm t' c q = sm t c q) /\ (forall c, cm t' c q = cm t c q) /\ (forall n, sel t' n q = sel t n q).
Lemma sb_refl r t : same_below r t t. Proof. intros q _. auto. Qed.
Lemma sb_trans r a b c : same_below r a b -> same_below r b c -> same_below r a c.
Proof. intros H1 H2 q Hq. destruct (H1 q Hq) as [A1 [A2 A3]], (H2 q Hq) as [B1 [B2 B3]]. repeat split; intros; [rewrite B1|rewrite B2|rewrite B3]; auto. Qed.
Lemma sb_le r r' a b : r <= r' -> same_below r' a b -> same_below r a b.
Proof. intros H S q Hq. apply S. lia. Qed.
Lemma sb_s d r c q v t t' : r <= q -> set_s d c q v t = Ok t' -> same_below r t t'.
Proof.
  intros H. unfold set_s. destruct (_ && _); [|discriminate]. intros [= <-] x Hx. cbn. repeat split; auto. intros c'. unfold gset.
  destruct (Nat.eqb_spec x q); [lia|]. rewrite andb_false_r. reflexivity.
Qed.
Lemma sb_c d r c q v t t' : r <= q -> set_c d c q v t = Ok t' -> same_below r t t'.
Proof.
  intros H. unfold set_c. destruct (_ && _); [|discriminate]. intros [= <-] x Hx. cbn. repeat split; auto. intros c'. unfold gset.
  destruct (Nat.eqb_spec x q); [lia|]. rewrite andb_false_r. reflexivity.
Qed.
Lemma sb_sel d r c q v t t' : r <= q -> set_sel d c q v t = Ok t' -> same_below r t t'.
Proof.
  intros H. unfold set_sel. destruct (_ <? _); [|discriminate]. intros [= <-] x Hx. cbn. repeat split; auto. intros c'.
  destruct (Nat.eqb_spec x q); [lia|]. rewrite andb_false_r. reflexivity.
Qed.
Lemma sb_fold {A} r (f : tables -> A -> res tables) l : (forall t x t', In x l -> f t x = Ok t' -> same_below r t t') -> forall t t', foldM f l t = Ok t' -> same_below r t t'.
Proof.
  induction l as [|x l IH]; intros H t t' E; cbn [foldM] in E; [injection E as <-; apply sb_refl|]. bi E.
  eapply sb_trans; [eapply H; [left; reflexivity|exact E0]|]. eapply IH; [|exact E]. intros. eapply H; [right|]; eassumption.
Qed.
Lemma sb_ss d r q l t t' : r <= q -> set_ss d q l t = Ok t' -> same_below r t t'.
Proof. intros H. apply sb_fold. intros. eapply sb_s; [exact H|eassumption]. Qed.
Lemma sb_cs d r q l t t' : r <= q -> set_cs d q l t = Ok t' -> same_below r t t'.
Proof. intros H. apply sb_fold. intros. eapply sb_c; [exact H|eassumption]. Qed.
Lemma sb_sels d r q l t t' : r <= q -> set_sels d q l t = Ok t' -> same_below r t t'.
Proof. intros H. apply sb_fold. intros. eapply sb_sel; [exact H|eassumption]. Qed.

Ltac sbt := repeat match goal with
  | |- same_below _ ?t ?t => apply sb_refl
  | H : set_s ?d ?c ?q ?v ?t = Ok ?t' |- same_below ?r ?t _ => eapply sb_trans; [eapply sb_s; [|exact H]; lia|clear H]
  | H : set_c ?d ?c ?q ?v ?t = Ok ?t' |- same_below ?r ?t _ => eapply sb_trans; [eapply sb_c; [|exact H]; lia|clear H]
  | H : set_ss ?d ?q ?v ?t = Ok ?t' |- same_below ?r ?t _ => eapply sb_trans; [eapply sb_ss; [|exact H]; lia|clear H]
  | H : set_cs ?d ?q ?v ?t = Ok ?t' |- same_below ?r ?t _ => eapply sb_trans; [eapply sb_cs; [|exact H]; lia|clear H]
  | H : set_sels ?d ?q ?v ?t = Ok ?t' |- same_below ?r ?t _ => eapply sb_trans; [eapply sb_sels; [|exact H]; lia|clear H]
  end; try apply sb_refl.

Lemma put_custom_sb cp gi d t r c t' r' : put_custom cp gi d (t, r) c = Ok (t', r') -> same_below r t t' /\ r <= r'.
Proof.
  unfold put_custom. destruct (cg_id c =? poseidon_id gi).
  - intros H. bi H. injection H as <- <-. split; [|lia]. unfold put_poseidon in E. destruct (negb _); [discriminate|].
    revert E. apply sb_fold. intros t1 j t2 _ H. unfold put_poseidon_row in H. bi H. bi H. bi H.
    apply (sb_fold r) in E; [|intros t3 k t4 _ H'; bi H'; bi H'; bi H'; sbt].
    eapply sb_trans; [exact E|]. sbt. 
  - destruct (cg_id c =? c_mul_add_id gi).
    + intros H. bi H. injection H as <- <-. split; [|lia]. unfold put_cmuladd in E. bi E. bi E.
      assert (S1 : same_below r t x0).
      { destruct (r <? n_used d); [|injection E0 as <-; apply sb_refl]. revert E0. apply sb_fold. intros t3 k t4 _ H'. bi H'. eapply sb_s; [|exact H']; lia. }
      eapply sb_trans; [exact S1|]. sbt.
    + destruct (fft_get (cg_id c) (fft_params gi)).
      * intros H. bi H. injection H as <- <-. split; [|lia]. unfold put_fft in E. bi E. bi E. bi E. bi E. bi E. bi E. bi E. bi E. bi E.
        assert (S1 : same_below r t x0).
        { revert E0. apply sb_fold. intros t3 k t4 _ H'. bi H'. bi H'. bi H'. sbt. }
        assert (S2 : same_below r x2 x7).
        { destruct (Z.eqb (fint x3) 4); [bi E7; sbt|]. destruct (Z.eqb (fint x3) 2); [bi E7; sbt|discriminate]. }
        eapply sb_trans; [exact S1|]. sbt. eapply sb_trans; [exact S2|]. sbt.
      * destruct (cg_id c =? ev_pol_id gi); [|discriminate]. intros H. bi H. injection H as <- <-. split; [|lia]. unfold put_evpol in E. bi E. bi E. bi E. bi E.
        assert (S1 : same_below r t x0).
        { revert E0. apply sb_fold. intros t3 k t4 _ H'. bi H'. bi H'. sbt. }
        assert (S2 : same_below r x0 x1).
        { revert E1. apply sb_fold. intros t3 k t4 _ H'. bi H'. bi H'. sbt. }
        assert (S3 : same_below r x1 x2).
        { revert E2. apply sb_fold. intros t3 k t4 _ H'. bi H'. sbt. }
        eapply sb_trans; [exact S1|]. eapply sb_trans; [exact S2|]. eapply sb_trans; [exact S3|]. sbt.
Qed.
Lemma customs_sb cp gi d us : forall t r t' r', foldM (put_custom cp gi d) us (t, r) = Ok (t', r') -> same_below r t t' /\ r <= r'.
Proof.
  induction us as [|u us IH]; intros t r t' r' H; cbn [foldM] in H; [injection H as <- <-; split; [apply sb_refl|lia]|]. bi H. destruct x as [t1 r1].
  apply put_custom_sb in E. destruct E as [S1 L1]. apply IH in H. destruct H as [S2 L2]. split; [|lia]. eapply sb_trans; [exact S1|]. eapply sb_le; [|exact S2]. exact L1.
Qed.
Lemma fill_sb d r n : forall t t', foldM (fill_row d) (seq r n) t = Ok t' -> same_below r t t' /\ sm t' = sm t /\
  (forall q, r <= q < r + n -> forall m, sel t' m q = f0).
Proof.
  assert (G : forall t q t', fill_row d t q = Ok t' -> same_below q t t' /\ sm t' = sm t /\ (forall m, sel t' m q = f0) /\ (forall m q', q' <> q -> sel t' m q' = sel t m q')).
  { intros t q t' H. unfold fill_row in H. bi H. assert (S : same_below q t t') by sbt. split; [exact S|].
    apply set_sels_inv in E. destruct E as [_ [A [B C]]]. apply set_cs_inv in H. destruct H as [_ [A1 [B1 C1]]]. split; [congruence|]. split.
    - intros m. rewrite B1, C, Nat.eqb_refl. unfold slast. destruct m; reflexivity.
    - intros m q' N. rewrite B1, C. destruct (Nat.eqb_spec q' q); [contradiction|reflexivity]. }
  revert r. induction n as [|n IH]; intros r t t' H; cbn [seq foldM] in H.
  - injection H as <-. split; [apply sb_refl|]. split; [reflexivity|]. intros. lia.
  - bi H. apply G in E. destruct E as [S1 [S2 [S3 S4]]]. apply IH in H. destruct H as [T1 [T2 T3]]. split; [|split; [congruence|]].
    + eapply sb_trans; [exact S1|]. eapply sb_le; [|exact T1]. lia.
    + intros q Hq m. destruct (Nat.eq_dec q r) as [->|N]; [|apply T3; lia]. destruct (T1 r) as [_ [_ X]]; [lia|]. rewrite X. apply S3.
Qed.

(* ---- the public rows ---- *)
Lemma public_fold_gen (cc rr : nat -> nat) (DM : forall i j, cc i = cc j -> rr i = rr j -> i = j) d (v : nat -> nat) l : forall t t', foldM (fun t i => set_s d (cc i) (rr i) (v i) t) l t = Ok t' ->
  NoDup l -> cm t' = cm t /\ sel t' = sel t /\
  (forall i, In i l -> sm t' (cc i) (rr i) = v i) /\ (forall i, ~ In i l -> sm t' (cc i) (rr i) = sm t (cc i) (rr i)) /\
  (forall c q, ~ (exists i, In i l /\ c = cc i /\ q = rr i) -> sm t' c q = sm t c q).
Proof.
  induction l as [|x l IH]; intros t t' H ND; cbn [foldM] in H.
  - injection H as <-. repeat split; auto. intros i [].
  - inversion ND as [|? ? N1 N2]; subst. bi H. apply IH in H; [|exact N2]. destruct H as [A [B [C [D F]]]].
    unfold set_s in E. destruct (_ && _); [|discriminate]. injection E as <-. cbn [cm sel sm] in *.
    split; [exact A|]. split; [exact B|]. split; [|split].
    + intros i [<-|Hi]; [|apply C, Hi]. rewrite D by exact N1. unfold gset. rewrite !Nat.eqb_refl. reflexivity.
    + intros i Hi. rewrite D by (intros X; apply Hi; right; exact X). unfold gset. destruct (Nat.eqb_spec (cc i) (cc x)) as [E1|]; [|reflexivity].
      destruct (Nat.eqb_spec (rr i) (rr x)) as [E2|]; [|reflexivity]. exfalso. apply Hi. left. symmetry. apply DM; assumption.
    + intros c q Hn. rewrite F by (intros [i [Hi Hc]]; apply Hn; exists i; split; [right; exact Hi|exact Hc]). unfold gset.
      destruct (Nat.eqb_spec c (cc x)); [|reflexivity]. destruct (Nat.eqb_spec q (rr x)); [|reflexivity]. exfalso. apply Hn. exists x. split; [left; reflexivity|auto].
Qed.

Lemma div_mod_inj i j : i mod 12 = j mod 12 -> i / 12 = j / 12 -> i = j.
Proof. intros A B. rewrite (Nat.div_mod i 12), (Nat.div_mod j 12), A, B by lia. reflexivity. Qed.
Definition public_fold := public_fold_gen (fun i => i mod 12) (fun i => i / 12) div_mod_inj.

Lemma public_rows_ok d n npr t0 t : npr = (n - 1) / 12 + 1 -> 1 <= n -> public_rows d n npr t0 = Ok t ->
  (forall m q, sel t0 m q = f0) ->
  (forall i, i < n -> sm t (i mod 12) (i / 12) = 1 + i) /\ (forall i, n <= i < npr * 12 -> sm t (i mod 12) (i / 12) = 0) /\
  (forall m q, sel t m q = f0).
Proof.
  intros En Hn H S0. unfold public_rows in H. bi H. bi H.
  assert (SX : forall m q, sel x m q = f0).
  { clear - E S0. revert t0 x S0 E. induction (seq 0 npr) as [|i l IH]; intros t0 x S0 E; cbn [foldM] in E; [injection E as <-; exact S0|]. bi E. bi E0.
    apply (IH x0 x); [|exact E]. intros m q. apply set_cs_inv in E0. destruct E0 as [_ [_ [B _]]]. rewrite B.
    apply set_sels_inv in E1. destruct E1 as [_ [_ [_ C]]]. rewrite C. destruct (q =? i); [unfold slast; destruct m; apply S0 || reflexivity|apply S0]. }
  apply (public_fold d (fun i => 1 + i)) in E0; [|apply seq_NoDup]. apply (public_fold d (fun _ => 0)) in H; [|apply seq_NoDup].
  destruct E0 as [A1 [B1 [C1 [D1 _]]]]. destruct H as [A2 [B2 [C2 [D2 _]]]].
  assert (LE : n <= npr * 12).
  { subst npr. pose proof (Nat.div_mod (n - 1) 12 ltac:(lia)). pose proof (Nat.mod_upper_bound (n - 1) 12 ltac:(lia)). lia. }
  split; [|split].
  - intros i Hi. rewrite D2 by (rewrite in_seq; lia). apply C1. rewrite in_seq. lia.
  - intros i Hi. apply C2. rewrite in_seq. lia.
  - intros m q. rewrite B2, B1. apply SX.
Qed.
