(* The extension of the trace: the columns committed in the first three stages. *)
From Coq Require Import Ring Field Arith.
From Verif Require Import Base GlModel FrField F3gModel Cubic F3gProof ListAux PolyModel Roots PolyProof FftProof FftTop FriMath CodegenModel CodegenProof
  InterpModel InterpProof VerifierModel VerifierProof ImModel HashModel FftpModel FftpProof FftpBase FftpTop BrProof FriModel FriProof PolsModel PolsProof ProverModel ProverProof
  ParModel ParProof StarkMath StarkModel StarkGen StarkSrc StarkPoly StarkRow StarkQuot StarkEval StarkStep4 StarkTop StarkDone StageModel.
From Verif Require MerkleProof.
Open Scope nat_scope.
Open Scope list_scope.
Open Scope res_scope.
Add Field K_field_ext : K_field.

(* the polynomial of a column of the trace *)
Definition ipol (nb : nat) (src : list F3G) (w pos dim : nat) : list K := idft nb (map (fun i => val (elem src w pos dim i)) (seq 0 (2 ^ nb))).
Lemma ipol_len nb src w pos dim : length (ipol nb src w pos dim) = 2 ^ nb.
Proof. apply idft_len. Qed.
Lemma ipol_at nb src w pos dim i : nb <= 31 -> i < 2 ^ nb -> peval (ipol nb src w pos dim) (kpow (kroot nb) i) = val (elem src w pos dim i).
Proof.
  intros Hn Hi. set (v := map (fun i => val (elem src w pos dim i)) (seq 0 (2 ^ nb))).
  pose proof (dft_idft nb v Hn ltac:(unfold v; rewrite map_length, seq_length; reflexivity)) as D. apply (f_equal (fun l => nth i l kzero)) in D.
  unfold dft in D. rewrite nth_map_seq in D by exact Hi. unfold ipol. fold v. rewrite D. unfold v. rewrite nth_map_seq by exact Hi. reflexivity.
Qed.
Lemma root_wrap nb i : nb <= 31 -> i < 2 ^ nb -> kmul (kpow (kroot nb) i) (kroot nb) = kpow (kroot nb) ((i + 1) mod 2 ^ nb).
Proof.
  intros Hn Hi. transitivity (kpow (kroot nb) (i + 1)); [rewrite kpow_add; cbn [kpow]; ring|].
  destruct (Nat.eq_dec (i + 1) (2 ^ nb)) as [E|E].
  - rewrite E, Nat.mod_same by (apply Nat.pow_nonzero; lia). rewrite kroot_full by lia. reflexivity.
  - rewrite Nat.mod_small by lia. reflexivity.
Qed.

Lemma resize_base n l : Forall base l -> Forall base (resize n e_ZERO l).
Proof. intros H. unfold resize. apply Forall_app. split; [apply firstn_P, H | apply repeat_P; eexists; reflexivity]. Qed.
Lemma resize_len {A} n (x : A) l : length (resize n x l) = n.
Proof. unfold resize. rewrite app_length, firstn_length, repeat_length. lia. Qed.
Lemma base_back l : Forall vbase l -> map e_from (map c0 l) = l.
Proof. induction 1 as [|x l [f ->] _ IH]; [reflexivity|]. cbn [map]. rewrite IH. reflexivity. Qed.

(* the extension of a table of base elements *)
Lemma interpolate_cols workers nb e w src dst br : 0 < workers -> w <= MAX_OPS -> 1 <= nb <= e -> e <= 31 -> (e <= 24 \/ Forall (fun v => v = e_ZERO) dst) ->
  length src = 2 ^ nb * w -> Forall vbase src -> length dst = 2 ^ e * w -> Forall vbase dst -> nice br ->
  exists out br', interpolate workers src w nb dst e br = (Ok out, br') /\ nice br' /\ length out = 2 ^ e * w /\ Forall vbase out /\
    forall pos dim, dim = 1 \/ dim = 3 -> pos + dim <= w -> column e out w pos dim (ipol nb src w pos dim).
Proof.
  intros Hw Hm Hn He HT Ls Bs Ld Bd Nb. destruct (Nat.eq_dec w 0) as [->|Hw0].
  - rewrite Nat.mul_0_r in Ls. destruct src as [|x src]; [|discriminate Ls]. exists dst, br. split; [reflexivity|]. split; [exact Nb|]. split; [exact Ld|]. split; [exact Bd|].
    intros pos dim Hd Hp. lia.
  - assert (Hw1 : 0 < w) by lia.
    assert (T : e <= 24 \/ tailz w (pow2 nb) dst).
    { destruct HT as [HT|HT]; [now left|right]. intros k r Hk _. unfold col. destruct (Nat.lt_ge_cases (r * w + k) (length dst)) as [I|I].
      - rewrite Forall_forall in HT. rewrite (HT (nth (r * w + k) dst e_ZERO)) by (apply nth_In; exact I). apply val_ZERO.
      - rewrite nth_overflow by exact I. apply val_ZERO. }
    destruct (interpolate_ok w Hw1 workers src nb dst e br Hw Hm ltac:(lia) ltac:(lia) He Ls Ld Nb T) as [out [br' [E [N' [L C]]]]].
    assert (B : Forall vbase out) by (eapply interpolate_base; [exact Bs | exact Bd | exact E]).
    exists out, br'. split; [exact E|]. split; [exact N'|]. split; [exact L|]. split; [exact B|]. intros pos dim Hd Hp.
    constructor; [exact Hd | exact Hp | exact L | exact B|]. intros r Hr. rewrite elem_comb by assumption.
    transitivity (comb dim (fun k => peval (idft nb (map (col w src (pos + k)) (seq 0 (2 ^ nb)))) (cpt e r))).
    { apply comb_ext. intros k Hk. transitivity (col w out (pos + k) r); [unfold col; f_equal; f_equal; ring|].
      rewrite <- (colL_nth w out (pos + k) (pow2 e) r Hr), (C (pos + k)) by lia. unfold lde. rewrite nth_map_seq by (replace (nb + (e - nb)) with e by lia; exact Hr).
      replace (nb + (e - nb)) with e by lia. reflexivity. }
    unfold ipol. replace (map (fun i => val (elem src w pos dim i)) (seq 0 (2 ^ nb))) with (map (fun i => comb dim (fun k => col w src (pos + k) i)) (seq 0 (pow2 nb))).
    2:{ apply map_ext. intros i. rewrite elem_comb by assumption. apply comb_ext. intros k Hk. unfold col. f_equal. f_equal. ring. }
    set (I1 := idft nb (map (fun i => comb dim (fun k => col w src (pos + k) i)) (seq 0 (pow2 nb)))).
    assert (E1 : I1 = map (fun j => comb dim (fun k => nth j (idft nb (map (col w src (pos + k)) (seq 0 (pow2 nb)))) kzero)) (seq 0 (pow2 nb))).
    { symmetry. apply list_eq_map_seq; [apply idft_len|]. intros j Hj. exact (idft_comb dim nb (fun k i => col w src (pos + k) i) j Hj). }
    rewrite E1, (peval_comb dim (pow2 nb) (fun k j => nth j (idft nb (map (col w src (pos + k)) (seq 0 (pow2 nb)))) kzero)).
    apply comb_ext. intros k Hk. f_equal. symmetry. apply list_eq_map_seq; [apply idft_len|]. reflexivity.
Qed.

(** ** what a stage leaves alone *)
Definition same_but (ss : list sec) (m m' : mem) : Prop :=
  (forall s, ~ In s ss -> m_sec m' s = m_sec m s) /\ m_zi m' = m_zi m.
Lemma same_refl ss m : same_but ss m m. Proof. split; reflexivity. Qed.
Lemma same_trans ss a b c : same_but ss a b -> same_but ss b c -> same_but ss a c.
Proof. intros [A1 A2] [B1 B2]. split; [intros s Hs; rewrite (B1 s Hs); exact (A1 s Hs) | congruence]. Qed.
Lemma same_weak ss ss' a b : incl ss ss' -> same_but ss a b -> same_but ss' a b.
Proof. intros I [A1 A2]. split; [intros s Hs; apply A1; intros H; apply Hs, I, H | exact A2]. Qed.
Lemma same_set ss m s l : In s ss -> same_but ss m (m_set m s l).
Proof. intros H. split; [|reflexivity]. intros s' Hs. apply m_set_other. intros ->. contradiction. Qed.

Lemma foldM_inv {A B} (P : B -> Prop) (f : B -> A -> res B) l : (forall b x b', In x l -> P b -> f b x = Ok b' -> P b') -> forall b r, P b -> foldM f l b = Ok r -> P r.
Proof.
  induction l as [|a l IH]; intros H b r Hb E; cbn [foldM] in E; [injection E as <-; exact Hb|].
  apply bind_ok in E. destruct E as [b1 [E1 E]]. eapply IH; [|eapply H; [left; reflexivity|exact Hb|exact E1]|exact E]. intros b0 x b' I. apply H. now right.
Qed.
Lemma par_same si st m seg workers m' : calculate_exps_parallel si st m seg workers = Ok m' -> same_but (step_out st) m m'.
Proof.
  intros E. unfold calculate_exps_parallel, exps_chunked in E. apply bind_ok in E. destruct E as [per [_ E]]. apply bind_ok in E. destruct E as [cs [_ E]].
  apply bind_ok in E. destruct E as [cs' [_ E]]. revert E. apply (foldM_inv (fun b => same_but (step_out st) m b)); [|apply same_refl].
  intros b [k c] b' _ Hb E. unfold write_back in E. revert E. apply (foldM_inv (fun b => same_but (step_out st) m b)); [|exact Hb].
  intros b0 s b1 Hs Hb0 E. unfold write_section in E. destruct (_ <? _); [discriminate E|]. apply bind_ok in E. destruct E as [out [_ E]]. injection E as <-.
  eapply same_trans; [exact Hb0|]. apply same_set. exact Hs.
Qed.

Definition tmp_only (code : list instr) : Prop := Forall (fun c => n_ty (i_dest c) = Ntmp) code.
Definition op_tmp (o : iop) : Prop := match o with IWrite r => r_sym r = RSec Stmp | _ => True end.
Lemma write_tmp m r i v m' : r_sym r = RSec Stmp -> write_ref m r i v = Ok m' -> same_but [Stmp] m m'.
Proof.
  intros Er E. unfold write_ref in E. rewrite Er in E. cbn [sec_eqb] in E. rewrite orb_true_r in E. apply bind_ok in E. destruct E as [l [_ E]]. injection E as <-. apply same_set. now left.
Qed.
Lemma block_same l : forall m stack i x m', Forall op_tmp l -> block_eval m stack l i = Ok (x, m') -> same_but [Stmp] m m'.
Proof.
  induction l as [|o l IH]; intros m stack i x m' H E; cbn [block_eval] in E; [injection E as _ <-; apply same_refl|].
  inversion H; subst. destruct o; cbn [op_tmp] in *;
    try (apply bind_ok in E; destruct E as [u [_ E]]; apply bind_ok in E; destruct E as [v [_ E]]; eapply IH; eassumption);
    try (apply bind_ok in E; destruct E as [u [_ E]]; eapply IH; eassumption).
  - destruct stack as [|v stack]; [discriminate E|]. apply bind_ok in E. destruct E as [m1 [E1 E]]. eapply same_trans; [eapply write_tmp; eassumption|]. eapply IH; eassumption.
  - destruct stack; [discriminate E|]. injection E as _ <-. apply same_refl.
Qed.
Lemma compile_tmp si code d ret blk : tmp_only code -> compile_code si code d ret = Ok blk -> Forall op_tmp blk.
Proof.
  intros H E. unfold compile_code in E. apply bind_ok in E. destruct E as [body [Eb E]].
  assert (G : Forall op_tmp (concat body)).
  { clear E. revert body Eb. induction H as [|c code Hc _ IH]; intros body Eb; cbn [mapM] in Eb; [injection Eb as <-; constructor|].
    apply bind_ok in Eb. destruct Eb as [x [Ex Eb]]. apply bind_ok in Eb. destruct Eb as [xs [Exs Eb]]. injection Eb as <-. cbn [concat]. apply Forall_app. split; [|exact (IH _ Exs)].
    unfold compile_instr in Ex. apply bind_ok in Ex. destruct Ex as [src [_ Ex]]. apply bind_ok in Ex. destruct Ex as [op [Eo Ex]]. apply bind_ok in Ex. destruct Ex as [dst [Ed Ex]]. apply ok_inj in Ex. subst x.
    constructor; [|constructor; [|constructor]].
    + unfold compile_op in Eo. destruct (i_op c), src as [|a [|b r]]; try discriminate Eo; apply ok_inj in Eo; subst op; exact Logic.I.
    + unfold dest_ref in Ed. rewrite Hc in Ed. apply ok_inj in Ed. subst dst. reflexivity. }
  destruct ret; [|apply ok_inj in E; subst blk; exact G].
  destruct (rev code); [discriminate E|]. apply bind_ok in E. destruct E as [r [_ E]]. apply ok_inj in E. subst blk. apply Forall_app. split; [exact G|]. repeat constructor.
Qed.
Lemma point_same si m seg idx x m' : tmp_only (sg_first seg) -> calculate_exp_at_point si m seg idx = Ok (x, m') -> same_but [Stmp] m m'.
Proof.
  intros H E. unfold calculate_exp_at_point in E. cbv zeta in E. apply bind_ok in E. destruct E as [blk [Eb E]].
  eapply same_trans; [apply same_set; now left|]. eapply block_same; [eapply compile_tmp; eassumption|exact E].
Qed.
Lemma publics_same si sg m m' : Forall (fun s => tmp_only (sg_first s)) (st_pubcode sg) -> set_publics si sg m = Ok m' -> same_but [Stmp; Spublics] m m'.
Proof.
  intros H E. unfold set_publics in E. revert E. apply (foldM_inv (fun b => same_but [Stmp; Spublics] m b)); [|apply same_set; right; now left].
  intros b [i p] b' _ Hb E. cbn [fst snd] in E. apply bind_ok in E. destruct E as [[v m1] [E1 E]]. cbn [fst snd] in E. apply bind_ok in E. destruct E as [l [_ E]]. apply ok_inj in E. subst b'.
  eapply same_trans; [exact Hb|]. eapply same_trans; [|apply same_set; right; now left].
  unfold public_value in E1. destruct (pb_kind p); [| |discriminate E1].
  - apply bind_ok in E1. destruct E1 as [u [_ E1]]. injection E1 as _ <-. apply same_refl.
  - apply bind_ok in E1. destruct E1 as [seg [Es E1]]. apply vget_inv in Es. rewrite Forall_forall in H. eapply same_weak; [|eapply point_same; [apply H; eapply nth_error_In; exact Es|exact E1]].
    intros s [<-|[]]. now left.
Qed.
Lemma write_pol_same si m id v m' : write_pol si m id v = Ok m' ->
  exists s pos dim, nth_error (si_map si) id = Some (s, pos, dim) /\ same_but [s] m m'.
Proof.
  intros E. unfold write_pol in E. apply bind_ok in E. destruct E as [[s pl] [E1 E]]. cbn [fst snd] in E. apply bind_ok in E. destruct E as [l [_ E]]. apply ok_inj in E. subst m'.
  unfold get_pol_ref in E1. apply bind_ok in E1. destruct E1 as [[[s' pos] dim] [E1 E2]]. apply vget_inv in E1. apply ok_inj in E2. injection E2 as <- _. exists s', pos, dim. split; [exact E1|].
  apply same_set. now left.
Qed.
(* the columns from k on, below k', lie in the section s *)
Definition cm_in (si : sinfo) (k k' : nat) (s : sec) : Prop :=
  forall c p s' pos dim, k <= c < k' -> nth_error (si_cm_n si) c = Some p -> nth_error (si_map si) p = Some (s', pos, dim) -> s' = s.
Lemma h1h2_same si sg l : forall m k m' k', cm_in si k (k + 2 * length l) Scm2_n -> foldM (h1h2_stage si sg) l (m, k) = Ok (m', k') ->
  same_but [Scm2_n] m m' /\ k' = k + 2 * length l.
Proof.
  induction l as [|pu l IH]; intros m k m' k' H E; cbn [foldM length] in *.
  - injection E as <- <-. split; [apply same_refl | lia].
  - apply bind_ok in E. destruct E as [[m1 k1] [E1 E]]. unfold h1h2_stage in E1.
    apply bind_ok in E1. destruct E1 as [fid [_ E1]]. apply bind_ok in E1. destruct E1 as [f [_ E1]]. apply bind_ok in E1. destruct E1 as [tid [_ E1]]. apply bind_ok in E1. destruct E1 as [t [_ E1]].
    apply bind_ok in E1. destruct E1 as [h [_ E1]]. apply bind_ok in E1. destruct E1 as [id1 [I1 E1]]. apply bind_ok in E1. destruct E1 as [ma [W1 E1]].
    apply bind_ok in E1. destruct E1 as [id2 [I2 E1]]. apply bind_ok in E1. destruct E1 as [mb [W2 E1]]. apply ok_inj in E1. injection E1 as <- <-.
    apply vget_inv in I1, I2. apply write_pol_same in W1, W2. destruct W1 as [s1 [p1 [d1 [M1 S1]]]]. destruct W2 as [s2 [p2 [d2 [M2 S2]]]].
    assert (s1 = Scm2_n) by (eapply (H k); [lia | exact I1 | exact M1]). assert (s2 = Scm2_n) by (eapply (H (k + 1)); [lia | exact I2 | exact M2]). subst s1 s2.
    assert (H' : cm_in si (k + 2) (k + 2 + 2 * length l) Scm2_n) by (intros c p s' pos dim Hc; apply H; lia).
    destruct (IH _ _ _ _ H' E) as [S3 ->]. split; [|lia]. eapply same_trans; [exact S1|]. eapply same_trans; [exact S2|exact S3].
Qed.
Lemma z_same si sg l : forall m k m' k', cm_in si k (k + length l) Scm3_n -> foldM (z_stage si sg) l (m, k) = Ok (m', k') ->
  same_but [Scm3_n] m m' /\ k' = k + length l.
Proof.
  induction l as [|pu l IH]; intros m k m' k' H E; cbn [foldM length] in *.
  - injection E as <- <-. split; [apply same_refl | lia].
  - apply bind_ok in E. destruct E as [[m1 k1] [E1 E]]. unfold z_stage in E1.
    apply bind_ok in E1. destruct E1 as [fid [_ E1]]. apply bind_ok in E1. destruct E1 as [f [_ E1]]. apply bind_ok in E1. destruct E1 as [tid [_ E1]]. apply bind_ok in E1. destruct E1 as [t [_ E1]].
    apply bind_ok in E1. destruct E1 as [h [_ E1]]. apply bind_ok in E1. destruct E1 as [id1 [I1 E1]]. apply bind_ok in E1. destruct E1 as [ma [W1 E1]]. apply ok_inj in E1. injection E1 as <- <-.
    apply vget_inv in I1. apply write_pol_same in W1. destruct W1 as [s1 [p1 [d1 [M1 S1]]]].
    assert (s1 = Scm3_n) by (eapply (H k); [lia | exact I1 | exact M1]). subst s1.
    assert (H' : cm_in si (k + 1) (k + 1 + length l) Scm3_n) by (intros c p s' pos dim Hc; apply H; lia).
    destruct (IH _ _ _ _ H' E) as [S3 ->]. split; [|lia]. eapply same_trans; [exact S1|exact S3].
Qed.

(** ** the commitment of a stage *)
Section Commit.
  Variable perm : list Fr -> list Fr -> list Fr.
  Hypothesis perm_len : forall i s, length (perm i s) = 12.
  Lemma merkelize_elements k buff w h t : merkelize perm k buff w h = Ok t -> t_elements t = buff.
  Proof.
    unfold merkelize. intros E.
    repeat (match type of E with
      | bind _ _ = _ => apply bind_ok in E; destruct E as [? [_ E]]
      | (if ?b then _ else _) = _ => destruct b; try discriminate E
      end; cbv zeta in E). apply ok_inj in E. subst t. reflexivity.
  Qed.
  Lemma div8_le w : w <= MAX_OPS -> w / 8 <= MAX_OPS.
  Proof. intros H. etransitivity; [apply Nat.div_le_upper_bound; [discriminate|]|exact H]. lia. Qed.
  (* the section s2 of m' holds the polynomials of the columns of sn *)
  Record committed (si : sinfo) (sn s2 : sec) (m m' : mem) (t : tree) (r : list Fr) : Prop := {
    cd_same : same_but [s2] m m';
    cd_len : length (m_sec m' s2) = 2 ^ si_nbits_ext si * si_width si sn;
    cd_base : Forall vbase (m_sec m' s2);
    cd_tree : exists k, merkelize perm k (map c0 (m_sec m' s2)) (si_width si sn) (2 ^ si_nbits_ext si) = Ok t;
    cd_root : tree_root t = Ok r;
    cd_col : forall pos dim, dim = 1 \/ dim = 3 -> pos + dim <= si_width si sn ->
      column (si_nbits_ext si) (m_sec m' s2) (si_width si sn) pos dim (ipol (si_nbits si) (m_sec m sn) (si_width si sn) pos dim) }.
  Lemma commit_ok workers si sn s2 m result tr br : workers <> 0 -> si_width si sn <= MAX_OPS -> 1 <= si_nbits si <= si_nbits_ext si -> si_nbits_ext si <= 24 ->
    length (m_sec m sn) = 2 ^ si_nbits si * si_width si sn -> Forall vbase (m_sec m sn) -> length (m_sec m s2) = 2 ^ si_nbits_ext si * si_width si sn ->
    Forall vbase result -> nice br -> TranscriptProof.wf tr ->
    exists m' out t r tr' br', commit_stage perm workers si sn s2 m result tr br = Ok (m', out, t, tr', br') /\ committed si sn s2 m m' t r /\
      Forall vbase out /\ put perm tr [r] = Ok tr' /\ TranscriptProof.wf tr' /\ nice br'.
  Proof.
    intros Hw Hm Hn He Ls Bs L2 Br Nb Wt.
    destruct (interpolate_cols workers (si_nbits si) (si_nbits_ext si) (si_width si sn) (m_sec m sn) (resize (2 ^ si_nbits_ext si * si_width si sn) e_ZERO result) br)
      as [out [br' [E [N' [L [B C]]]]]]; try assumption; try lia; [apply resize_len | apply resize_base; exact Br|].
    assert (H2 : 2 <= 2 ^ si_nbits_ext si) by (change 2 with (2 ^ 1) at 1; apply Nat.pow_le_mono_r; lia).
    destruct (MerkleProof.merkelize_total perm perm_len workers (map c0 out) (si_width si sn) (2 ^ si_nbits_ext si)) as [t Et]; [exact Hw | exact H2 | rewrite map_length; exact L | apply div8_le, Hm|].
    destruct (MerkleProof.complete perm perm_len workers (map c0 out) (si_width si sn) (2 ^ si_nbits_ext si) t 0) as [mp [r [_ [Er _]]]]; [exact H2 | rewrite map_length; exact L | exact Et | lia|].
    destruct (put_ok perm perm_len tr [r] Wt) as [tr' [Ep Wp]].
    assert (El : t_elements t = map c0 out) by (eapply merkelize_elements; exact Et).
    exists (m_set m s2 out), out, t, r, tr', br'. split; [|split; [|split; [exact B|split; [exact Ep|split; [exact Wp|exact N']]]]].
    - unfold commit_stage, extend_and_merkelize. cbv zeta. rewrite E. cbv beta iota. rewrite bindE, (words_ok out B), bindE, Et, bindE. rewrite bindE. cbv beta iota. unfold to_extend.
      rewrite El, map_length, L2, L, Nat.eqb_refl, bindE, Er, bindE, Ep, bindE, (base_back out B). reflexivity.
    - constructor; rewrite ?m_set_same; [apply same_set; now left | exact L | exact B | exists workers; exact Et | exact Er | exact C].
  Qed.
End Commit.

(** ** the first three stages *)
(* the section s2 of m holds the polynomials of the columns of sn, t is its tree and r its root *)
Record held (perm : list Fr -> list Fr -> list Fr) (si : sinfo) (m : mem) (sn s2 : sec) (t : tree) (r : list Fr) : Prop := {
  he_len : length (m_sec m s2) = 2 ^ si_nbits_ext si * si_width si sn;
  he_base : Forall vbase (m_sec m s2);
  he_tree : exists k, merkelize perm k (map c0 (m_sec m s2)) (si_width si sn) (2 ^ si_nbits_ext si) = Ok t;
  he_root : tree_root t = Ok r;
  he_col : forall pos dim, dim = 1 \/ dim = 3 -> pos + dim <= si_width si sn ->
    column (si_nbits_ext si) (m_sec m s2) (si_width si sn) pos dim (ipol (si_nbits si) (m_sec m sn) (si_width si sn) pos dim) }.
Lemma committed_held perm si sn s2 m m' t r : sn <> s2 -> committed perm si sn s2 m m' t r -> held perm si m' sn s2 t r.
Proof.
  intros D [A1 A2 A3 A4 A5 A6]. constructor; [exact A2 | exact A3 | exact A4 | exact A5|]. rewrite (proj1 A1 sn) by (intros [X|[]]; congruence). exact A6.
Qed.
Lemma held_same perm si m m' ss sn s2 t r : same_but ss m m' -> ~ In sn ss -> ~ In s2 ss -> held perm si m sn s2 t r -> held perm si m' sn s2 t r.
Proof. intros S1 N1 N2 [A1 A2 A3 A4 A5]. constructor; rewrite ?(proj1 S1 s2 N2), ?(proj1 S1 sn N1); [exact A1 | exact A2 | exact A3 | exact A4 | exact A5]. Qed.

Lemma set_challenge_same m i v m' : set_challenge m i v = Ok m' -> same_but [Schallenge] m m' /\ vset (m_sec m Schallenge) i v = Ok (m_sec m' Schallenge).
Proof.
  intros E. unfold set_challenge in E. apply bind_ok in E. destruct E as [l [E1 E]]. apply ok_inj in E. subst m'. split; [apply same_set; now left|]. rewrite m_set_same. exact E1.
Qed.
Lemma get_challenge_wf perm t x t' : get_challenge perm t = Ok (x, t') -> F3gProof.wf x.
Proof.
  unfold get_challenge. intros E. apply bind_ok in E. destruct E as [[[[a b] c] t1] [_ E]]. apply ok_inj in E. injection E as <- _. apply wf_new.
Qed.
Lemma vset_8 (a b c d e f g h : F3G) l x i : l = [a;b;c;d;e;f;g;h] -> i < 4 -> forall l', vset l i x = Ok l' ->
  l' = match i with 0 => [x;b;c;d;e;f;g;h] | 1 => [a;x;c;d;e;f;g;h] | 2 => [a;b;x;d;e;f;g;h] | _ => [a;b;c;x;e;f;g;h] end.
Proof.
  intros -> Hi l' E. do 4 (destruct i as [|i]; [cbn in E; apply ok_inj in E; symmetry; exact E|]). lia.
Qed.

Ltac sout := cbn [In]; intuition discriminate.

Lemma commit_same perm workers si sn s2 m result tr br m' out t tr' br' : commit_stage perm workers si sn s2 m result tr br = Ok (m', out, t, tr', br') -> same_but [s2] m m'.
Proof.
  intros E3. unfold commit_stage in E3. apply bind_ok in E3. destruct E3 as [[[x y] z] [_ E3]]. apply bind_ok in E3. destruct E3 as [mx [E3 E8]]. apply bind_ok in E8. destruct E8 as [r [_ E8]].
  apply bind_ok in E8. destruct E8 as [q [_ E8]]. apply ok_inj in E8. injection E8 as -> _ _ _ _. unfold to_extend in E3. destruct (_ =? _); [|discriminate E3]. apply ok_inj in E3. subst m'. apply same_set. now left.
Qed.

Section Stages3.
  Variable perm : list Fr -> list Fr -> list Fr.
  Hypothesis perm_len : forall i s, length (perm i s) = 12.
  Variables (workers : nat) (si : sinfo) (sg : stageprog).
  Hypothesis Hwk : workers <> 0.
  Hypothesis Hbits : 1 <= si_nbits si <= si_nbits_ext si /\ si_nbits_ext si <= 24.
  Hypothesis Hwidth : forall s, In s [Scm1_n; Scm2_n; Scm3_n] -> si_width si s <= MAX_OPS.
  Hypothesis Hpub : Forall (fun s => tmp_only (sg_first s)) (st_pubcode sg).
  Hypothesis Hh : cm_in si (st_ncm1 sg) (st_ncm1 sg + 2 * length (st_pu sg)) Scm2_n.
  Hypothesis Hz : cm_in si (st_ncm1 sg + 2 * length (st_pu sg)) (st_ncm1 sg + 2 * length (st_pu sg) + length (st_pu sg ++ st_pe sg ++ st_ci sg)) Scm3_n.
  Local Notation N := (2 ^ si_nbits si).
  Local Notation Ne := (2 ^ si_nbits_ext si).
  Definition full (m : mem) (s : sec) : Prop := length (m_sec m s) = N * si_width si s /\ Forall vbase (m_sec m s).

  Lemma stage1_inv m0 br m res t1 tr br' : full m0 Scm1_n -> length (m_sec m0 Scm1_2ns) = Ne * si_width si Scm1_n -> m_sec m0 Schallenge = repeat e_ZERO 8 -> nice br ->
    stage1 perm workers si sg m0 br = Ok (m, res, t1, tr, br') ->
    exists r1 ta tb tc u dv, same_but [Stmp; Spublics; Scm1_2ns; Schallenge] m0 m /\ held perm si m Scm1_n Scm1_2ns t1 r1 /\ Forall vbase res /\ nice br' /\ TranscriptProof.wf tr /\
      put_elems perm tr_new (m_sec m Spublics) = Ok ta /\ put perm ta [r1] = Ok tb /\ get_challenge perm tb = Ok (u, tc) /\ get_challenge perm tc = Ok (dv, tr) /\
      m_sec m Schallenge = [u; dv; e_ZERO; e_ZERO; e_ZERO; e_ZERO; e_ZERO; e_ZERO] /\
      exists ma, set_publics si sg m0 = Ok ma /\ m_sec m Spublics = m_sec ma Spublics.
  Proof.
    intros [F1 F2] L2 C0 Nb E. unfold stage1 in E. apply bind_ok in E. destruct E as [ma [E1 E]]. apply bind_ok in E. destruct E as [ta [E2 E]]. cbv zeta in E.
    apply bind_ok in E. destruct E as [[[[[mb res'] t1'] trb] brb] [E3 E]]. apply bind_ok in E. destruct E as [[u tc] [E4 E]]. apply bind_ok in E. destruct E as [mc [E5 E]].
    apply bind_ok in E. destruct E as [[dv td] [E6 E]]. apply bind_ok in E. destruct E as [md [E7 E]]. apply ok_inj in E. injection E as -> -> -> -> ->.
    pose proof (publics_same _ _ _ _ Hpub E1) as Sa.
    assert (Wa : TranscriptProof.wf ta) by (eapply (elems_wf perm perm_len); [apply TranscriptProof.new_wf | exact E2]).
    destruct (commit_ok perm perm_len workers si Scm1_n Scm1_2ns ma (repeat e_ZERO (Ne * 8)) ta br) as [m' [ou [t [r [tr' [br2 [G1 [G2 [G3 [G4 [G5 G6]]]]]]]]]]]; try assumption;
      [apply Hwidth; now left | apply Hbits | apply Hbits | rewrite (proj1 Sa) by sout; exact F1 | rewrite (proj1 Sa) by sout; exact F2 | rewrite (proj1 Sa) by sout; exact L2
      | apply Forall_forall; intros x Hx; apply repeat_spec in Hx; subst x; now exists f0|].
    rewrite G1 in E3. apply ok_inj in E3. injection E3 as -> -> -> -> ->.
    destruct (set_challenge_same _ _ _ _ E5) as [S5 V5]. destruct (set_challenge_same _ _ _ _ E7) as [S7 V7].
    pose proof (cd_same _ _ _ _ _ _ _ _ G2) as Sb.
    assert (Cb : m_sec mb Schallenge = repeat e_ZERO 8) by (rewrite (proj1 Sb), (proj1 Sa) by sout; exact C0).
    cbn [repeat] in Cb. pose proof (vset_8 _ _ _ _ _ _ _ _ _ _ 0 Cb ltac:(lia) _ V5) as Cc. cbv iota in Cc. pose proof (vset_8 _ _ _ _ _ _ _ _ _ _ 1 Cc ltac:(lia) _ V7) as Cd. cbv iota in Cd.
    exists r, ta, trb, tc, u, dv. split; [|split; [|split; [exact G3|split; [exact G6|split; [|split; [|split; [exact G4|split; [exact E4|split; [exact E6|split; [exact Cd|]]]]]]]]]].
    - apply (same_trans _ _ ma); [eapply same_weak; [|exact Sa]; intros s; cbn; tauto|]. apply (same_trans _ _ mb); [eapply same_weak; [|exact Sb]; intros s; cbn; tauto|].
      apply (same_trans _ _ mc); [eapply same_weak; [|exact S5]; intros s; cbn; tauto|]. eapply same_weak; [|exact S7]. intros s. cbn. tauto.
    - apply (held_same perm si mc m [Schallenge]); [exact S7 | sout | sout|]. apply (held_same perm si mb mc [Schallenge]); [exact S5 | sout | sout|].
      apply (committed_held perm si _ _ ma); [discriminate | exact G2].
    - eapply (challenge_wf perm perm_len); [|exact E6]. eapply (challenge_wf perm perm_len); [|exact E4]. exact G5.
    - rewrite (proj1 S7), (proj1 S5), (proj1 Sb) by sout. exact E2.
    - exists ma. split; [exact E1|]. rewrite (proj1 S7), (proj1 S5), (proj1 Sb) by sout. reflexivity.
  Qed.
  Lemma stage2_inv m0 res0 tr0 br m k res t2 tr br' u dv : length (m_sec m0 Scm2_2ns) = Ne * si_width si Scm2_n -> full m Scm2_n ->
    m_sec m0 Schallenge = [u; dv; e_ZERO; e_ZERO; e_ZERO; e_ZERO; e_ZERO; e_ZERO] -> Forall vbase res0 -> nice br -> TranscriptProof.wf tr0 ->
    stage2 perm workers si sg m0 res0 tr0 br = Ok (m, k, res, t2, tr, br') ->
    exists r2 tb tc gamma beta, same_but [Scm2_n; Scm3_n; Stmpexp_n; Scm2_2ns; Schallenge] m0 m /\ held perm si m Scm2_n Scm2_2ns t2 r2 /\ Forall vbase res /\ nice br' /\ TranscriptProof.wf tr /\
      put perm tr0 [r2] = Ok tb /\ get_challenge perm tb = Ok (gamma, tc) /\ get_challenge perm tc = Ok (beta, tr) /\
      m_sec m Schallenge = [u; dv; gamma; beta; e_ZERO; e_ZERO; e_ZERO; e_ZERO] /\ k = st_ncm1 sg + 2 * length (st_pu sg).
  Proof.
    intros L2 [F1 F2] C0 Br Nb Wt E. unfold stage2 in E. apply bind_ok in E. destruct E as [ma [E1 E]]. apply bind_ok in E. destruct E as [[mh kh] [E2 E]].
    apply bind_ok in E. destruct E as [[[[[mb res'] t2'] trb] brb] [E3 E]]. apply bind_ok in E. destruct E as [[ga tc] [E4 E]]. apply bind_ok in E. destruct E as [mc [E5 E]].
    apply bind_ok in E. destruct E as [[be td] [E6 E]]. apply bind_ok in E. destruct E as [md [E7 E]]. apply ok_inj in E. injection E as -> -> -> -> -> ->.
    pose proof (par_same _ _ _ _ _ _ E1) as Sa. cbn [step_out] in Sa. destruct (h1h2_same _ _ _ _ _ _ _ Hh E2) as [Sh ->].
    destruct (set_challenge_same _ _ _ _ E5) as [S5 V5]. destruct (set_challenge_same _ _ _ _ E7) as [S7 V7].
    pose proof (commit_same _ _ _ _ _ _ _ _ _ _ _ _ _ _ E3) as Cm.
    assert (Fm : m_sec m Scm2_n = m_sec mh Scm2_n) by (rewrite (proj1 S7), (proj1 S5), (proj1 Cm) by sout; reflexivity).
    destruct (commit_ok perm perm_len workers si Scm2_n Scm2_2ns mh res0 tr0 br) as [m' [ou [t [r [tr' [br2 [G1 [G2 [G3 [G4 [G5 G6]]]]]]]]]]]; try assumption;
      [apply Hwidth; right; now left | apply Hbits | apply Hbits | rewrite <- Fm; exact F1 | rewrite <- Fm; exact F2 | rewrite (proj1 Sh), (proj1 Sa) by sout; exact L2|].
    rewrite G1 in E3. apply ok_inj in E3. injection E3 as -> -> -> -> ->.
    assert (Cb : m_sec mb Schallenge = [u; dv; e_ZERO; e_ZERO; e_ZERO; e_ZERO; e_ZERO; e_ZERO]) by (rewrite (proj1 Cm), (proj1 Sh), (proj1 Sa) by sout; exact C0).
    pose proof (vset_8 _ _ _ _ _ _ _ _ _ _ 2 Cb ltac:(lia) _ V5) as Cc. cbv iota in Cc. pose proof (vset_8 _ _ _ _ _ _ _ _ _ _ 3 Cc ltac:(lia) _ V7) as Cd. cbv iota in Cd.
    exists r, trb, tc, ga, be. split; [|split; [|split; [exact G3|split; [exact G6|split; [|split; [exact G4|split; [exact E4|split; [exact E6|split; [exact Cd | reflexivity]]]]]]]]].
    - apply (same_trans _ _ ma); [eapply same_weak; [|exact Sa]; intros s; cbn; tauto|]. apply (same_trans _ _ mh); [eapply same_weak; [|exact Sh]; intros s; cbn; tauto|].
      apply (same_trans _ _ mb); [eapply same_weak; [|exact Cm]; intros s; cbn; tauto|].
      apply (same_trans _ _ mc); [eapply same_weak; [|exact S5]; intros s; cbn; tauto|]. eapply same_weak; [|exact S7]. intros s. cbn. tauto.
    - apply (held_same perm si mc m [Schallenge]); [exact S7 | sout | sout|]. apply (held_same perm si mb mc [Schallenge]); [exact S5 | sout | sout|].
      apply (committed_held perm si _ _ mh); [discriminate | exact G2].
    - eapply (challenge_wf perm perm_len); [|exact E6]. eapply (challenge_wf perm perm_len); [|exact E4]. exact G5.
  Qed.
  Lemma stage3_inv m0 res0 tr0 br m t3 tr br' : length (m_sec m0 Scm3_2ns) = Ne * si_width si Scm3_n -> full m Scm3_n -> Forall vbase res0 -> nice br -> TranscriptProof.wf tr0 ->
    stage3 perm workers si sg m0 (st_ncm1 sg + 2 * length (st_pu sg)) res0 tr0 br = Ok (m, t3, tr, br') ->
    exists r3, same_but [Scm3_n; Stmpexp_n; Scm3_2ns] m0 m /\ held perm si m Scm3_n Scm3_2ns t3 r3 /\ nice br' /\ put perm tr0 [r3] = Ok tr.
  Proof.
    intros L2 [F1 F2] Br Nb Wt E. unfold stage3 in E. apply bind_ok in E. destruct E as [ma [E1 E]]. apply bind_ok in E. destruct E as [[mz kz] [E2 E]].
    apply bind_ok in E. destruct E as [mp [E3 E]].
    apply bind_ok in E. destruct E as [[[[[mb res'] t3'] trb] brb] [E4 E]]. apply ok_inj in E. injection E as -> -> -> ->.
    pose proof (par_same _ _ _ _ _ _ E1) as Sa. cbn [step_out] in Sa. destruct (z_same _ _ _ _ _ _ _ Hz E2) as [Sz _].
    pose proof (par_same _ _ _ _ _ _ E3) as Sp. cbn [step_out] in Sp.
    pose proof (commit_same _ _ _ _ _ _ _ _ _ _ _ _ _ _ E4) as Cm.
    assert (Fm : m_sec m Scm3_n = m_sec mp Scm3_n) by (rewrite (proj1 Cm) by sout; reflexivity).
    destruct (commit_ok perm perm_len workers si Scm3_n Scm3_2ns mp res0 tr0 br) as [m' [ou [t [r [tr' [br2 [G1 [G2 [G3 [G4 [G5 G6]]]]]]]]]]]; try assumption;
      [apply Hwidth; right; right; now left | apply Hbits | apply Hbits | rewrite <- Fm; exact F1 | rewrite <- Fm; exact F2 | rewrite (proj1 Sp), (proj1 Sz), (proj1 Sa) by sout; exact L2|].
    rewrite G1 in E4. apply ok_inj in E4. injection E4 as -> -> -> -> ->.
    exists r. split; [|split; [|split; [exact G6|exact G4]]].
    - apply (same_trans _ _ ma); [eapply same_weak; [|exact Sa]; intros s; cbn; tauto|]. apply (same_trans _ _ mz); [eapply same_weak; [|exact Sz]; intros s; cbn; tauto|].
      apply (same_trans _ _ mp); [eapply same_weak; [|exact Sp]; intros s; cbn; tauto|]. eapply same_weak; [|exact Cm]. intros s. cbn. tauto.
    - apply (committed_held perm si _ _ mp); [discriminate | exact G2].
  Qed.

  Lemma stage2_count m0 res0 tr0 br m k res t2 tr br' : stage2 perm workers si sg m0 res0 tr0 br = Ok (m, k, res, t2, tr, br') -> k = st_ncm1 sg + 2 * length (st_pu sg).
  Proof.
    intros E. unfold stage2 in E. apply bind_ok in E. destruct E as [ma [E1 E]]. apply bind_ok in E. destruct E as [[mh kh] [E2 E]].
    apply bind_ok in E. destruct E as [[[[[mb res'] t2'] trb] brb] [E3 E]]. apply bind_ok in E. destruct E as [[ga tc] [E4 E]]. apply bind_ok in E. destruct E as [mc [E5 E]].
    apply bind_ok in E. destruct E as [[be td] [E6 E]]. apply bind_ok in E. destruct E as [md [E7 E]]. apply ok_inj in E. injection E as -> -> -> -> -> ->.
    exact (proj2 (h1h2_same _ _ _ _ _ _ _ Hh E2)).
  Qed.
  Lemma stage3_same m0 res0 tr0 br m t3 tr br' : stage3 perm workers si sg m0 (st_ncm1 sg + 2 * length (st_pu sg)) res0 tr0 br = Ok (m, t3, tr, br') -> same_but [Scm3_n; Stmpexp_n; Scm3_2ns] m0 m.
  Proof.
    intros E. unfold stage3 in E. apply bind_ok in E. destruct E as [ma [E1 E]]. apply bind_ok in E. destruct E as [[mz kz] [E2 E]].
    apply bind_ok in E. destruct E as [mp [E3 E]]. apply bind_ok in E. destruct E as [[[[[mb res'] t3'] trb] brb] [E4 E]]. apply ok_inj in E. injection E as -> -> -> ->.
    pose proof (par_same _ _ _ _ _ _ E1) as Sa. cbn [step_out] in Sa. destruct (z_same _ _ _ _ _ _ _ Hz E2) as [Sz _]. pose proof (par_same _ _ _ _ _ _ E3) as Sp. cbn [step_out] in Sp.
    pose proof (commit_same _ _ _ _ _ _ _ _ _ _ _ _ _ _ E4) as Cm.
    apply (same_trans _ _ ma); [eapply same_weak; [|exact Sa]; intros s; cbn; tauto|]. apply (same_trans _ _ mz); [eapply same_weak; [|exact Sz]; intros s; cbn; tauto|].
    apply (same_trans _ _ mp); [eapply same_weak; [|exact Sp]; intros s; cbn; tauto|]. eapply same_weak; [|exact Cm]. intros s. cbn. tauto.
  Qed.

  Definition touched : list sec := [Stmp; Spublics; Scm2_n; Scm3_n; Stmpexp_n; Scm1_2ns; Scm2_2ns; Scm3_2ns; Schallenge].
  Theorem stages_inv m0 br m t1 t2 t3 tr br' : full m0 Scm1_n -> length (m_sec m0 Scm1_2ns) = Ne * si_width si Scm1_n -> length (m_sec m0 Scm2_2ns) = Ne * si_width si Scm2_n ->
    length (m_sec m0 Scm3_2ns) = Ne * si_width si Scm3_n -> m_sec m0 Schallenge = repeat e_ZERO 8 -> nice br ->
    stages perm workers si sg m0 br = Ok (m, t1, t2, t3, tr, br') -> full m Scm2_n -> full m Scm3_n ->
    exists r1 r2 r3, same_but touched m0 m /\ held perm si m Scm1_n Scm1_2ns t1 r1 /\ held perm si m Scm2_n Scm2_2ns t2 r2 /\ held perm si m Scm3_n Scm3_2ns t3 r3 /\
      nice br' /\ first_rounds perm (m_sec m Spublics) r1 r2 r3 (m_sec m Schallenge) tr /\ length (m_sec m Schallenge) = 8 /\ Forall F3gProof.wf (m_sec m Schallenge) /\
      exists ma, set_publics si sg m0 = Ok ma /\ m_sec m Spublics = m_sec ma Spublics.
  Proof.
    intros F1 L1 L2 L3 C0 Nb E F2 F3. unfold stages in E. apply bind_ok in E. destruct E as [[[[[ma resa] ta] tra] bra] [E1 E]].
    apply bind_ok in E. destruct E as [[[[[[mb kb] resb] tb] trb] brb] [E2 E]]. apply bind_ok in E. destruct E as [[[[mc tc] trc] brc] [E3 E]]. apply ok_inj in E. injection E as -> -> -> -> -> ->.
    destruct (stage1_inv _ _ _ _ _ _ _ F1 L1 C0 Nb E1) as [r1 [x1 [x2 [x3 [u [dv [A1 [A2 [A3 [A4 [A5 [A6 [A7 [A8 [A9 [A10 A11]]]]]]]]]]]]]]]].
    pose proof (stage2_count _ _ _ _ _ _ _ _ _ _ E2). subst kb.
    assert (F2' : full mb Scm2_n) by (pose proof (stage3_same _ _ _ _ _ _ _ _ E3) as G; destruct F2 as [P1 P2]; rewrite (proj1 G) in P1, P2 by sout; split; assumption).
    destruct (stage2_inv _ _ _ _ _ _ _ _ _ _ u dv ltac:(rewrite (proj1 A1) by sout; exact L2) F2' A10 A3 A4 A5 E2) as [r2 [y1 [y2 [ga [be [B1 [B2 [B3 [B4 [B5 [B6 [B7 [B8 [B9 _]]]]]]]]]]]]]].
    destruct (stage3_inv _ _ _ _ _ _ _ _ ltac:(rewrite (proj1 B1), (proj1 A1) by sout; exact L3) F3 B3 B4 B5 E3) as [r3 [D1 [D2 [D3 D4]]]].
    exists r1, r2, r3. split; [|split; [|split; [|split; [exact D2|split; [exact D3|split; [|split; [|split]]]]]]].
    - apply (same_trans _ _ ma); [eapply same_weak; [|exact A1]; intros s; cbn; tauto|]. apply (same_trans _ _ mb); [eapply same_weak; [|exact B1]; intros s; cbn; tauto|].
      eapply same_weak; [|exact D1]; intros s; cbn; tauto.
    - apply (held_same perm si mb m _ _ _ _ _ D1); [sout | sout|]. apply (held_same perm si ma mb _ _ _ _ _ B1); [sout | sout | exact A2].
    - apply (held_same perm si mb m _ _ _ _ _ D1); [sout | sout | exact B2].
    - exists x1, x2, x3, tra, y1, y2, trb, u, dv, ga, be. rewrite (proj1 D1), (proj1 D1) by sout. rewrite B9. rewrite (proj1 B1) by sout.
      split; [exact A6|]. split; [exact A7|]. split; [exact A8|]. split; [exact A9|]. split; [exact B6|]. split; [exact B7|]. split; [exact B8|]. split; [exact D4 | reflexivity].
    - rewrite (proj1 D1) by sout. rewrite B9. reflexivity.
    - rewrite (proj1 D1) by sout. rewrite B9. pose proof (get_challenge_wf _ _ _ _ A8). pose proof (get_challenge_wf _ _ _ _ A9). pose proof (get_challenge_wf _ _ _ _ B7). pose proof (get_challenge_wf _ _ _ _ B8).
      repeat (constructor; [assumption|]). repeat (constructor; [exact wf_ZERO|]). constructor.
    - destruct A11 as [mx [X1 X2]]. exists mx. split; [exact X1|]. rewrite (proj1 D1), (proj1 B1) by sout. exact X2.
  Qed.
End Stages3.

Lemma vset_len {A} (l : list A) i x l' : vset l i x = Ok l' -> length l' = length l /\ i < length l.
Proof.
  intros E. destruct (Nat.lt_ge_cases i (length l)) as [H|H].
  - destruct (vset_spec l i x H) as [l2 [E2 [L _]]]. rewrite E2 in E. apply ok_inj in E. subst. split; [exact L | exact H].
  - exfalso. unfold vset in E. destruct (vset_aux l i x) as [r|] eqn:E2; [|discriminate E]. clear E. revert i r H E2. induction l as [|a l IH]; intros [|i] r H E; cbn in E, H; try discriminate E; try lia.
    destruct (vset_aux l i x) as [r'|] eqn:E'; [|discriminate E]. eapply IH; [|exact E']. lia.
Qed.
Lemma publics_len si sg m m' : Forall (fun s => tmp_only (sg_first s)) (st_pubcode sg) -> set_publics si sg m = Ok m' -> length (m_sec m' Spublics) = length (st_publics sg).
Proof.
  intros H E. unfold set_publics in E. revert E. apply (foldM_inv (fun b => length (m_sec b Spublics) = length (st_publics sg))); [|rewrite m_set_same; apply repeat_length].
  intros b [i p] b' _ Hb E. cbn [fst snd] in E. apply bind_ok in E. destruct E as [[v m1] [E1 E]]. cbn [fst snd] in E. apply bind_ok in E. destruct E as [l [E2 E]]. apply ok_inj in E. subst b'.
  rewrite m_set_same. rewrite (proj1 (vset_len _ _ _ _ E2)), <- Hb. unfold public_value in E1. destruct (pb_kind p); [| |discriminate E1].
  - apply bind_ok in E1. destruct E1 as [u [_ E1]]. apply ok_inj in E1. injection E1 as _ <-. reflexivity.
  - apply bind_ok in E1. destruct E1 as [seg [Es E1]]. apply vget_inv in Es. rewrite Forall_forall in H. rewrite (proj1 (point_same _ _ _ _ _ _ (H _ (nth_error_In _ _ Es)) E1)) by sout. reflexivity.
Qed.
