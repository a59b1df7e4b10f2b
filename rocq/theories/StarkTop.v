(* The quotient phase of the prover: its memory, its tree and the polynomials behind the columns. *)
From Coq Require Import Ring Field Arith.
From Verif Require Import Base GlModel FrField F3gModel Cubic F3gProof ListAux PolyModel Roots PolyProof FftProof FftTop FriMath CodegenModel CodegenProof
  InterpModel InterpProof VerifierModel VerifierProof ImModel ImProof HashModel FftpModel FftpProof BrProof FriModel FriProof ProverModel ProverProof ParModel ParProof
  StarkMath StarkModel StarkGen StarkSrc StarkPoly StarkRow StarkQuot StarkEval StarkStep4 StarkFri StarkStep5 StarkCheck.
From Verif Require MerkleProof.
Open Scope nat_scope.
Open Scope list_scope.
Open Scope res_scope.
Add Field K_field_tp : K_field.

Lemma bindE {A B} (a : A) (f : A -> res B) : bind (Ok a) f = f a. Proof. reflexivity. Qed.
(* ---------- the joined constraint ---------- *)
Lemma joined_ind (Q : expr -> Prop) tbl ids im c : Q E_nop -> (forall i, In i ids -> Q (E_exp i false)) ->
  (forall k x e, In (k, x) im -> nth_error tbl k = Some e -> Q (E_sub e (E_cm x false))) ->
  (forall c e, is_nop c = false -> Q c -> Q e -> Q (E_add (E_mul (E_challenge 4) c) e)) ->
  joined tbl im (identities ids) = Ok c -> Q c.
Proof.
  intros Q0 Qi Qm Qj H.
  assert (J : forall a b, Q a -> Q b -> Q (join_vc a b)) by (intros a b Ha Hb; unfold join_vc; destruct (is_nop a) eqn:E; [exact Hb | now apply Qj]).
  assert (A : Q (identities ids)).
  { unfold identities. assert (G : forall l a, (forall i, In i l -> Q (E_exp i false)) -> Q a -> Q (fold_left (fun c i => join_vc c (E_exp i false)) l a)).
    { induction l as [|i l IH]; intros a Hl Ha; cbn [fold_left]; [exact Ha|]. apply IH; [intros j Hj; apply Hl; now right|]. apply J; [exact Ha | apply Hl; now left]. }
    apply G; assumption. }
  revert A H. generalize (identities ids). revert Qm. clear -J. induction im as [|[k x] l IH]; intros Qm a Ha H; unfold joined in H; cbn [foldM] in H.
  - apply ok_inj in H. subst c. exact Ha.
  - cbn [fst snd] in H. destruct (vget tbl k) as [e| | |] eqn:Ek; try discriminate H. cbn [bind] in H. fold (joined tbl l (join_vc a (E_sub e (E_cm x false)))) in H.
    refine (IH _ _ _ H); [intros k' x' e' Hin; apply Qm; now right|]. apply J; [exact Ha|]. apply (Qm k x); [now left | exact (vget_inv _ _ _ Ek)].
Qed.
Lemma joined_im tbl : forall im a c, joined tbl im a = Ok c -> Forall (fun p => fst p < length tbl) im.
Proof.
  induction im as [|[k x] l IH]; intros a c H; [constructor|]. unfold joined in H. cbn [foldM fst snd] in H. destruct (vget tbl k) as [e| | |] eqn:Ek; try discriminate H. cbn [bind] in H.
  fold (joined tbl l (join_vc a (E_sub e (E_cm x false)))) in H. constructor; [|exact (IH _ _ H)]. cbn [fst]. apply vget_inv in Ek. apply nth_error_Some. congruence.
Qed.
Lemma joined_wf tbl ids im c : Forall wf_e tbl -> joined tbl im (identities ids) = Ok c -> wf_e c.
Proof.
  intros W. apply joined_ind.
  - constructor; [exact Logic.I | constructor].
  - intros i _. constructor; [exact Logic.I | constructor].
  - intros k x e _ E. constructor; [exact (le_n 2)|]. constructor; [exact (proj1 (Forall_forall _ _) W e (nth_error_In _ _ E))|]. constructor; [|constructor]. constructor; [exact Logic.I | constructor].
  - intros a b _ Ha Hb. constructor; [exact (le_n 2)|]. constructor; [|constructor; [exact Hb | constructor]]. constructor; [exact (le_n 2)|].
    constructor; [|constructor; [exact Ha | constructor]]. constructor; [exact Logic.I | constructor].
Qed.
Lemma joined_labs (P : node -> Prop) p tbl ids im c : Forall (labs P false p) tbl -> (forall i, In i ids -> P (N_new Nexp i None p)) ->
  (forall k x, In (k, x) im -> P (N_new Ncm x None p)) -> P (N_new Nchallenge 4 None false) \/ length ids + length im <= 1 ->
  joined tbl im (identities ids) = Ok c -> labs P false p c.
Proof.
  intros Ht Hi Hm Hch H.
  assert (A : labs P false p E_nop) by (constructor; [exact Logic.I | constructor]).
  assert (B : forall i, In i ids -> labs P false p (E_exp i false)) by (intros i Hin; constructor; [intros j Ej; cbn in Ej; injection Ej as <-; exact (Hi i Hin) | constructor]).
  assert (C : forall k x e, In (k, x) im -> nth_error tbl k = Some e -> labs P false p (E_sub e (E_cm x false))).
  { intros k x e Hin E. constructor; [exact Logic.I|]. constructor; [exact (proj1 (Forall_forall _ _) Ht e (nth_error_In _ _ E))|]. constructor; [|constructor].
    constructor; [intros j Ej; cbn in Ej; injection Ej as <-; exact (Hm k x Hin) | constructor]. }
  destruct Hch as [Hch|Hs].
  - revert H. apply joined_ind; try assumption. intros a b _ Ha Hb. constructor; [exact Logic.I|]. constructor; [|constructor; [exact Hb | constructor]].
    constructor; [exact Logic.I|]. constructor; [|constructor; [exact Ha | constructor]]. constructor; [intros j Ej; cbn in Ej; injection Ej as <-; exact Hch | constructor].
  - destruct ids as [|i [|i' ids]]; [| |cbn [length] in Hs; lia].
    + destruct im as [|[k x] [|y im]]; [| |cbn [length] in Hs; lia]; unfold joined in H; cbn [foldM fst snd] in H.
      * apply ok_inj in H. subst c. exact A.
      * destruct (vget tbl k) as [e| | |] eqn:Ek; try discriminate H. cbn [bind] in H. apply ok_inj in H. subst c. apply (C k x); [now left | exact (vget_inv _ _ _ Ek)].
    + destruct im as [|y im]; [|cbn [length] in Hs; lia]. unfold joined in H. cbn [foldM] in H. apply ok_inj in H. subst c. apply B. now left.
Qed.
(* the constraint vanishes where the identities hold and the intermediate columns are those of their expressions *)
Lemma joined_zero tbl T rho ids im c : (forall i v, In i ids -> den T rho false (E_exp i false) v -> val v = kzero) ->
  (forall k x e v, In (k, x) im -> nth_error tbl k = Some e -> den T rho false e v -> val v = val (rho (N_new Ncm x None false))) ->
  joined tbl im (identities ids) = Ok c -> forall v, den T rho false c v -> val v = kzero.
Proof.
  intros Hi Hm. apply (joined_ind (fun c => forall v, den T rho false c v -> val v = kzero)).
  - intros v D. inversion D; subst; discriminate.
  - intros i Hin v. exact (Hi i v Hin).
  - intros k x e Hin E v D. inversion D; subst; try discriminate. match goal with A : e_values _ = _ |- _ => cbn in A; injection A as <- <- <- end.
    rewrite val_sub. match goal with A : den _ _ _ (E_cm _ _) _ |- _ => inversion A; subst; try discriminate end. match goal with A : e_id _ = Some _ |- _ => cbn in A; injection A as <- end.
    match goal with A : den _ _ _ e ?y |- _ => rewrite (Hm k x e y Hin E A) end. cbn [e_next E_cm orb]. ring.
  - intros a b _ Ha Hb v D. inversion D; subst; try discriminate. match goal with A : e_values _ = _ |- _ => cbn in A; injection A as <- <- <- end.
    match goal with A : den _ _ _ b ?y |- _ => rewrite val_add, (Hb y A) end. match goal with A : den _ _ _ (E_mul _ _) _ |- _ => inversion A; subst; try discriminate end.
    match goal with A : e_values _ = _ |- _ => cbn in A; injection A as <- <- <- end. match goal with A : den _ _ _ a ?y |- _ => rewrite val_mul, (Ha y A) end. ring.
Qed.

(* ---------- small facts about the prover's steps ---------- *)
Lemma set_challenge_ok m i v : i < length (m_sec m Schallenge) ->
  exists l, set_challenge m i v = Ok (m_set m Schallenge l) /\ length l = length (m_sec m Schallenge) /\ (forall k, nth_error l k = if k =? i then Some v else nth_error (m_sec m Schallenge) k).
Proof. intros H. destruct (vset_spec _ _ v H) as [l [E [L N]]]. exists l. unfold set_challenge. rewrite E. auto. Qed.
Lemma nth_eq {A} (l l' : list A) d k : nth_error l k = nth_error l' k -> nth k l d = nth k l' d.
Proof.
  intros H. destruct (nth_error l' k) as [x|] eqn:E; [now rewrite (nth_error_nth _ _ d H), (nth_error_nth _ _ d E)|].
  apply nth_error_None in H. apply nth_error_None in E. now rewrite !nth_overflow.
Qed.
Lemma forall_set {A} (P : A -> Prop) (l l' : list A) i v : Forall P l -> P v -> (forall k, nth_error l' k = if k =? i then Some v else nth_error l k) -> Forall P l'.
Proof.
  intros Hl Hv H. apply Forall_forall. intros x Hx. apply In_nth_error in Hx. destruct Hx as [k Hk]. rewrite H in Hk. destruct (k =? i); [now injection Hk as <-|].
  exact (proj1 (Forall_forall _ _) Hl x (nth_error_In _ _ Hk)).
Qed.
Lemma challenge_d3 perm t x t' : get_challenge perm t = Ok (x, t') -> d3 x = true.
Proof. unfold get_challenge. destruct (get_field perm t) as [[[[a b] c] u]| | |]; cbn [bind]; intros H; try discriminate H. apply ok_inj in H. injection H as <- _. reflexivity. Qed.
Lemma d3_wf x : d3 x = true -> F3gProof.wf x.
Proof. intros H C. congruence. Qed.
Lemma words_ok l : Forall vbase l -> words_of l = Ok (map c0 l).
Proof. induction 1 as [|x l [f ->] _ IH]; [reflexivity|]. unfold words_of in *. cbn [mapM map]. rewrite IH. reflexivity. Qed.
Lemma column_ext e buf buf' size off dim P : buf' = buf -> column e buf size off dim P -> column e buf' size off dim P.
Proof. now intros ->. Qed.
Lemma at_point_ext im (P : node -> Prop) L L' x rho : (forall r, P r -> n_ty r <> Nexp -> L' r x = L r x) ->
  (forall i k p, assoc Nat.eqb im i = Some k -> L' (N_new Nexp i None p) x = L (N_new Nexp i None p) x) -> at_point im L' P x rho -> at_point im L P x rho.
Proof. intros A B [C D]. split; [intros r Hr Hn; rewrite (C r Hr Hn); now apply A | intros i k p E; rewrite (D i k p E); exact (B i k p E)]. Qed.
Lemma cpt_pow e nb i : nb <= e -> e <= 31 -> ksub (kpow (cpt e i) (2 ^ nb)) kone <> kzero.
Proof.
  intros H1 H2 C. destruct (zh_inv_spec nb (e - nb) 0 i ltac:(lia)) as [w [z [W [_ V]]]].
  replace (nb + (e - nb)) with e in W by lia. rewrite MG_root in W by lia. apply ok_inj in W. subst w. rewrite Nat.add_0_r in V.
  change (kmul (val z) (ksub (kpow (cpt e i) (2 ^ nb)) kone) = kone) in V. rewrite C in V. apply kone_neq. rewrite <- V. ring.
Qed.
Lemma kcancel a b c : c <> kzero -> kmul a c = kmul c b -> a = b.
Proof.
  intros H E. assert (A : kmul (kmul a c) (kinv c) = a) by (field; exact H). assert (B : kmul (kmul c b) (kinv c) = b) by (field; exact H). rewrite <- A, <- B, E. reflexivity.
Qed.

(* ---------- the setting ---------- *)
(* the program of a constraint system and a layout that fits it *)
Record stark_cfg (fuel gfuel : nat) (si : sinfo) (tbl : list expr) (ids : list nat) (ncm md : nat) (ce : cexp) (pg : program) (npub : nat) : Prop := {
  cf_bits : 1 <= si_nbits si <= si_nbits_ext si /\ si_nbits_ext si <= 31;
  cf_con : gen_constraint fuel tbl ids ncm md = Ok ce;
  cf_deg : ce_qs ce <> [] /\ length (ce_qs ce) * 2 ^ si_nbits si <= 2 ^ si_nbits_ext si;
  cf_prog : gen_program gfuel si ce = Ok pg;
  cf_tbl : Forall wf_e tbl /\ forall p, Forall (labs (node_ok si (length tbl) (ncm + length (ce_im ce)) npub) false p) tbl;
  cf_ids : Forall (fun i => i < length tbl) ids;
  cf_dim : si_qdim si = 3 \/ si_qdim si = 1 /\ length ids + length (ce_im ce) <= 1;
  cf_width : si_width si Sq_2ns = si_qdim si /\ si_width si Sf_2ns = 3 /\ si_width si Scm4_2ns = si_qdim si * length (ce_qs ce);
  cf_cm4 : forall p, p < length (ce_qs ce) -> exists q, nth_error (si_cm_2ns si) (ncm + length (ce_im ce) + p) = Some q /\
    nth_error (si_map si) q = Some (Scm4_2ns, si_qdim si * p, si_qdim si);
  cf_narrow : si_qdim si = 1 -> forall k p s pos dim, k < ncm + length (ce_im ce) -> nth_error (si_cm_2ns si) k = Some p -> nth_error (si_map si) p = Some (s, pos, dim) -> dim = 1 }.
(* the memory after stage 3: the columns are polynomials on the extended domain *)
Record stark_mem (si : sinfo) (kcm : nat) (pcm pconst : nat -> list K) (m : mem) : Prop := {
  sm_cols : cols [Scm1_2ns; Scm2_2ns; Scm3_2ns] si m kcm pcm;
  sm_const : ccols si m pconst;
  sm_sound : sound si Step4 m;
  sm_x : m_sec m Sx_2ns = ext_points (e_from (root (si_nbits_ext si))) (2 ^ si_nbits_ext si);
  sm_ch : length (m_sec m Schallenge) = 8;
  sm_q : Forall (fun v => v = e_ZERO) (m_sec m Sq_2ns);
  sm_f : length (m_sec m Sf_2ns) = 2 ^ si_nbits_ext si * 3 /\ Forall (fun v => v = e_ZERO) (m_sec m Sf_2ns);
  sm_cm4 : length (m_sec m Scm4_2ns) = 2 ^ si_nbits_ext si * si_width si Scm4_2ns /\ Forall vbase (m_sec m Scm4_2ns);
  sm_pub : si_qdim si = 1 -> Forall (fun v => d3 v = false) (m_sec m Spublics) }.
(* what a reference means in row i of the trace, the challenges being ch *)
Definition trace_row (si : sinfo) (im : list (nat * nat)) (kcm : nat) (pcm pconst : nat -> list K) (pub ch : list F3G) (i : nat) (r : node) : F3G :=
  of_k (leafp si im kcm pcm pconst pub ch r (kpow (kroot (si_nbits si)) i)).
(* every identity is zero in every row and every intermediate column is its expression, whatever challenge 4 is *)
Definition trace_ok (si : sinfo) (tbl : list expr) (ids : list nat) (ce : cexp) (kcm : nat) (pcm pconst : nat -> list K) (m : mem) : Prop :=
  forall i ch, i < 2 ^ si_nbits si -> (forall k, k <> 4 -> nth k ch e_ZERO = nth k (m_sec m Schallenge) e_ZERO) ->
  let rho := trace_row si (ce_im ce) kcm pcm pconst (m_sec m Spublics) ch i in
  (forall j v, In j ids -> den (with_im (ce_im ce) (ce_tbl ce)) rho false (E_exp j false) v -> val v = kzero) /\
  (forall k x e v, In (k, x) (ce_im ce) -> nth_error tbl k = Some e -> den (with_im (ce_im ce) (ce_tbl ce)) rho false e v -> val v = val (rho (N_new Ncm x None false))).
(* the rows of a worker reach far enough for the next row *)
Definition chunks_ok (si : sinfo) (workers : nat) : Prop :=
  exists per, rows_per_thread workers (2 ^ si_nbits_ext si) = Ok per /\
    (2 ^ si_nbits_ext si <= per \/ dom_next si false <= (2 ^ si_nbits_ext si - 1) mod per + 1).

Lemma sound_ext si st m m' : (forall s, In s (step_in st ++ step_out st) -> m_sec m' s = m_sec m s) -> (step_xdiv st = true -> m_xdiv m' = m_xdiv m /\ m_xdivw m' = m_xdivw m) ->
  m_zi m' = m_zi m -> Forall F3gProof.wf (m_sec m' Spublics) -> Forall F3gProof.wf (m_sec m' Schallenge) -> Forall F3gProof.wf (m_sec m' Sevals) -> sound si st m -> sound si st m'.
Proof.
  intros A B C W1 W2 W3 [[M1 [M2 M3]] [S _]]. split; [|split; [|auto]].
  - split; [intros s Hs; rewrite (A s Hs); exact (M1 s Hs)|]. split; [|intros i; rewrite C; apply M3]. intros Hx. destruct (B Hx) as [-> ->]. exact (M2 Hx).
  - intros s Hs. rewrite A by (apply in_or_app; now left). exact (S s Hs).
Qed.
Lemma cols_ext ss si m m' k pcm : (forall s, In s ss -> m_sec m' s = m_sec m s) -> cols ss si m k pcm -> cols ss si m' k pcm.
Proof.
  intros A H c Hc. destruct (H c Hc) as [L [p [s [pos [dim [C1 [C2 [C3 C4]]]]]]]]. split; [exact L|]. exists p, s, pos, dim. rewrite (A s C3). auto.
Qed.
Lemma ccols_ext si m m' pconst : m_sec m' Sconst_2ns = m_sec m Sconst_2ns -> ccols si m pconst -> ccols si m' pconst.
Proof. intros A H c Hc. rewrite A. exact (H c Hc). Qed.

Section Quotient.
  Variable perm : list Fr -> list Fr -> list Fr.
  Hypothesis perm_len : forall i s, length (perm i s) = 12.
  Variables (fuel gfuel workers : nat) (si : sinfo) (tbl : list expr) (ids : list nat) (ncm md : nat) (ce : cexp) (pg : program) (m : mem) (pcm pconst : nat -> list K).
  Local Notation nb := (si_nbits si).
  Local Notation N := (2 ^ si_nbits si).
  Local Notation e := (si_nbits_ext si).
  Local Notation n := (2 ^ si_nbits_ext si).
  Local Notation im := (ce_im ce).
  Local Notation kcm := (ncm + length (ce_im ce)).
  Local Notation qdeg := (length (ce_qs ce)).
  Local Notation qdim := (si_qdim si).
  Local Notation pub := (m_sec m Spublics).
  Hypothesis Hcfg : stark_cfg fuel gfuel si tbl ids ncm md ce pg (length pub).
  Hypothesis Hmem : stark_mem si kcm pcm pconst m.
  Hypothesis Hrows : trace_ok si tbl ids ce kcm pcm pconst m.
  Hypothesis Hwk : workers <> 0.
  Hypothesis Hchunks : chunks_ok si workers.
  Hypothesis Hops : si_width si Scm4_2ns / 8 <= MAX_OPS.

  Record cparts (c : expr) : Prop := {
    cp_joined : joined tbl im (identities ids) = Ok c;
    cp_tbl : ce_tbl ce = tbl ++ [c];
    cp_id : ce_id ce = length tbl;
    cp_qs : ce_qs ce = seq kcm qdeg;
    cp_ncm : ce_ncm ce = kcm + qdeg;
    cp_im : Forall (fun p => fst p < length tbl /\ snd p < kcm) im;
    cp_wf : Forall wf_e (tbl ++ [c]);
    cp_labs : forall p, Forall (labs (node_ok si (length tbl) kcm (length pub)) false p) (tbl ++ [c]) }.
  Lemma constraint_parts : exists c, cparts c.
  Proof.
    clear Hwk Hops Hmem Hrows Hchunks. destruct Hcfg as [B1 B2 B3 B4 [B5 B5'] B6 B7 B8 B9 B10]. destruct (gen_constraint_inv _ _ _ _ _ _ B2) as [s [q [c [C1 [C2 [C3 [C4 [C5 [C6 C7]]]]]]]]].
    assert (Ls : length im = length s) by (rewrite C2, combine_length, seq_length, nsort_len; apply Nat.min_id).
    assert (Lq : qdeg = Z.to_nat q) by (rewrite C6; apply seq_length).
    assert (Him : Forall (fun p => fst p < length tbl /\ snd p < kcm) im).
    { pose proof (joined_im _ _ _ _ C3) as J. apply Forall_forall. intros [k x] Hin. split; [exact (proj1 (Forall_forall _ _) J _ Hin)|].
      cbn [snd]. rewrite Ls. pose proof Hin as Hin'. rewrite C2 in Hin'. apply combine_range in Hin'; [|apply nsort_len]. lia. }
    exists c. constructor; try assumption.
    - rewrite Ls, Lq. exact C6.
    - rewrite Ls, Lq. exact C7.
    - apply Forall_app. split; [exact B5|]. constructor; [|constructor]. exact (joined_wf _ _ _ _ B5 C3).
    - intros p. apply Forall_app. split; [exact (B5' p)|]. constructor; [|constructor]. refine (joined_labs _ p tbl ids im c (B5' p) _ _ _ C3).
      + intros i Hi. exact (proj1 (Forall_forall _ _) B6 i Hi).
      + intros k x Hin. exact (proj2 (proj1 (Forall_forall _ _) Him _ Hin)).
      + destruct B7 as [E|[_ E]]; [left; cbn [node_ok n_ty N_new n_id]; split; [lia | rewrite E; discriminate] | right; exact E].
  Qed.
  Record gparts (c : expr) (code4 : list instr) (tmp4 : nat) (ctx : context) (ver : list instr) (ev : evst) (fe : expr) (s5 : list instr * nat) (qc : list instr * nat) (seg4 seg5 segq : segment) (q : list instr) : Prop := {
    gp_4 : step4_code gfuel (tbl ++ [c]) im (length tbl) = Ok (code4, tmp4, ctx);
    gp_v : verifier_code gfuel (tbl ++ [c]) im (length tbl) (seq kcm qdeg) = Ok (ver, ev);
    gp_fe : fri_expr (kcm + qdeg) (ev_map ev) = Ok fe;
    gp_5 : step5_code gfuel ((tbl ++ [c]) ++ [fe]) ctx (length (tbl ++ [c])) = Ok s5;
    gp_q : query_code gfuel ((tbl ++ [c]) ++ [fe]) (length (tbl ++ [c])) = Ok qc;
    gp_s4 : fix_prover_code si im [] false code4 tmp4 = Ok seg4;
    gp_s5 : fix_prover_code si im [] false (fst s5) (snd s5) = Ok seg5;
    gp_sq : fix_prover_code si im [] false (fst qc) (snd qc) = Ok segq;
    gp_tr : tree_refs si (sg_first segq) = Ok q;
    gp_pg : pg = mkP seg4 seg5 ver q ev (seq kcm qdeg) }.
  Lemma program_parts c : cparts c -> exists code4 tmp4 ctx ver ev fe s5 qc seg4 seg5 segq q, gparts c code4 tmp4 ctx ver ev fe s5 qc seg4 seg5 segq q.
  Proof.
    intros [P1 P2 P3 P4 P5 _ _ _]. pose proof (cf_prog _ _ _ _ _ _ _ _ _ _ Hcfg) as H. unfold gen_program in H. rewrite P2, P3, P5 in H.
    destruct (step4_code gfuel (tbl ++ [c]) im (length tbl)) as [[[code4 tmp4] ctx]| | |] eqn:E1; try discriminate H. rewrite bindE in H. cbv beta iota zeta in H.
    destruct (verifier_code gfuel (tbl ++ [c]) im (length tbl) (ce_qs ce)) as [[ver ev]| | |] eqn:E2; try discriminate H. rewrite bindE in H. cbv beta iota zeta in H.
    destruct (fri_expr (kcm + qdeg) (ev_map ev)) as [fe| | |] eqn:E3; try discriminate H. rewrite bindE in H. cbv beta iota zeta in H.
    destruct (step5_code gfuel ((tbl ++ [c]) ++ [fe]) ctx (length (tbl ++ [c]))) as [s5| | |] eqn:E4; try discriminate H. rewrite bindE in H. cbv beta iota zeta in H.
    destruct (query_code gfuel ((tbl ++ [c]) ++ [fe]) (length (tbl ++ [c]))) as [qc| | |] eqn:E5; try discriminate H. rewrite bindE in H. cbv beta iota zeta in H.
    destruct (fix_prover_code si im [] false code4 tmp4) as [seg4| | |] eqn:E6; try discriminate H. rewrite bindE in H. cbv beta iota zeta in H.
    destruct (fix_prover_code si im [] false (fst s5) (snd s5)) as [seg5| | |] eqn:E7; try discriminate H. rewrite bindE in H. cbv beta iota zeta in H.
    destruct (fix_prover_code si im [] false (fst qc) (snd qc)) as [segq| | |] eqn:E8; try discriminate H. rewrite bindE in H. cbv beta iota zeta in H.
    destruct (tree_refs si (sg_first segq)) as [q| | |] eqn:E9; try discriminate H. rewrite bindE in H. apply ok_inj in H.
    exists code4, tmp4, ctx, ver, ev, fe, s5, qc, seg4, seg5, segq, q. rewrite P4 in E2, H at 1. constructor; try assumption. now symmetry.
  Qed.

  Definition pcm' (Q : list K) (c : nat) : list K := if c <? kcm then pcm c else qpart N (c - kcm) Q.
  Record quot (c : expr) (tr : transcript) (m4 : mem) (t4 : tree) (root4 : list Fr) (vc xi : F3G) (tr4 : transcript) (Q : list K) : Prop := {
    qu_vc : exists tr1 tr2, get_challenge perm tr = Ok (vc, tr1) /\ put perm tr1 [root4] = Ok tr2 /\ get_challenge perm tr2 = Ok (xi, tr4);
    qu_tr : TranscriptProof.wf tr4;
    qu_sec : forall s, s <> Stmp -> s <> Sq_2ns -> s <> Scm4_2ns -> s <> Schallenge -> m_sec m4 s = m_sec m s;
    qu_zi : m_zi m4 = m_zi m;
    qu_ch : length (m_sec m4 Schallenge) = 8 /\ forall k, nth_error (m_sec m4 Schallenge) k = if k =? 7 then Some xi else if k =? 4 then Some vc else nth_error (m_sec m Schallenge) k;
    qu_cm4 : length (m_sec m4 Scm4_2ns) = n * si_width si Scm4_2ns /\ Forall vbase (m_sec m4 Scm4_2ns);
    qu_tree : merkelize perm workers (map c0 (m_sec m4 Scm4_2ns)) (si_width si Scm4_2ns) n = Ok t4 /\ tree_root t4 = Ok root4;
    qu_cols : cols trees4 si m4 (kcm + qdeg) (pcm' Q);
    qu_len : length Q <= qdeg * N;
    qu_Q : forall z rho v, at_point im (Lv si im kcm (pcm' Q) pconst pub (m_sec m4 Schallenge)) (Pv si tbl kcm pub) z rho ->
      den (with_im im (tbl ++ [c])) rho false c v -> val v = kmul (ksub (kpow z N) kone) (peval Q z) }.
  Theorem quotient_ok c tr br : cparts c -> TranscriptProof.wf tr -> nice br ->
    exists m4 t4 root4 vc xi tr4 Q, quotient_phase perm workers si pg m tr br = Ok (m4, t4, root4, xi, tr4) /\ quot c tr m4 t4 root4 vc xi tr4 Q.
  Proof.
    intros CP Wt Hbr. destruct (program_parts c CP) as [code4 [tmp4 [ctx [ver [ev [fe [s5 [qc [seg4 [seg5 [segq [q GP]]]]]]]]]]]].
    destruct CP as [P1 P2 P3 Pqs P5 P6 P7 P8]. destruct GP as [G1 G2 G3 G4 G5 G6 G7 G8 G9 G10].
    destruct Hcfg as [B1 B2 B3 B4 B5 B6 B7 B8 B9 B10]. destruct Hmem as [M1 M2 M3 M4 M5 M6 M7 M8 M9]. destruct B1 as [B1 B1']. destruct B3 as [B3 B3']. destruct B8 as [W1 [W2 W3]].
    assert (HN : 2 <= N) by (apply (Nat.pow_le_mono_r 2 1); lia). assert (Hn : 2 <= n) by (apply (Nat.pow_le_mono_r 2 1); lia).
    assert (Hqd : qdeg <> 0) by (intros C; apply length_zero_iff_nil in C; contradiction).
    destruct (challenge_ok perm perm_len tr Wt) as [vc [tr1 [T1 Wt1]]]. pose proof (challenge_d3 _ _ _ _ T1) as Dvc.
    destruct (set_challenge_ok m 4 vc ltac:(lia)) as [l4 [E4 [L4l N4]]].
    pose (m1 := m_set m Schallenge l4). fold m1 in E4.
    assert (S1 : forall s, s <> Schallenge -> m_sec m1 s = m_sec m s) by (intros s Hs; apply m_set_other; congruence).
    assert (C1 : m_sec m1 Schallenge = l4) by apply m_set_same.
    destruct M3 as [M3a [M3b [M3c [M3d M3e]]]].
    assert (Sd1 : sound si Step4 m1).
    { apply (sound_ext si Step4 m); [|discriminate|reflexivity| | | |exact (conj M3a (conj M3b (conj M3c (conj M3d M3e))))].
      - intros s Hs. apply S1. intros ->. cbn in Hs. repeat (destruct Hs as [Hs|Hs]; [discriminate Hs|]). exact Hs.
      - rewrite S1 by discriminate. exact M3c.
      - rewrite C1. exact (forall_set _ _ _ 4 vc M3d (d3_wf _ Dvc) N4).
      - rewrite S1 by discriminate. exact M3e. }
    destruct Hchunks as [per [K1 K2]].
    destruct (step4_rows si m1 tbl c im kcm pcm pconst B1 B1' Sd1) with (fuel := gfuel) (code := code4) (tmp := tmp4) (ctx := ctx) (seg := seg4) (workers := workers) (per := per)
      as [C [m2 [R1 [R2 [R3 [R4 [R5 [R6 [R7 [R8 [R9 [R10 R11]]]]]]]]]]]]; try assumption.
    { apply (cols_ext _ si m); [|exact M1]. intros s Hs. apply S1. intros ->. cbn in Hs. repeat (destruct Hs as [Hs|Hs]; [discriminate Hs|]). exact Hs. }
    { rewrite C1. lia. }
    { intros Hq1. rewrite S1 by discriminate. split; [exact (M9 Hq1) | exact (B10 Hq1)]. }
    { intros s Hs _. cbn in Hs. destruct Hs as [<-|[]]. rewrite S1 by discriminate. exact M6. }
    { tauto. }
    (* the quotient *)
    assert (HL : leaf_le (N - 1) (L4 si m1 im kcm pcm pconst)).
    { unfold L4. apply leafp_le; [lia| |]; [intros k Hk; exact (proj1 (M1 k Hk)) | intros k Hk; exact (proj1 (M2 k Hk))]. }
    destruct (constraint_deg fuel tbl ids ncm md ce (N - 1) _ B2 B3 ltac:(lia) HL) as [c' [D1 [D2 D3]]].
    assert (c' = c) by (rewrite P2 in D1; apply app_inj_tail in D1; symmetry; apply D1). subst c'.
    specialize (D3 (T4 im) (T4_in im) C R1).
    destruct (quotient_exists nb C qdeg ltac:(lia) ltac:(lia) HN D3) as [Q [Q1 Q2]].
    { intros i Hi. pose (rho := trace_row si im kcm pcm pconst pub l4 i).
      destruct (R3 rho) as [v Hv]. rewrite <- (R2 (kpow (kroot nb) i) rho v); [|unfold rho, trace_row|exact Hv].
      - destruct (Hrows i l4 Hi) as [H1 H2].
        { intros k Hk. apply nth_eq. rewrite N4. destruct (Nat.eqb_spec k 4); [contradiction | reflexivity]. }
        fold rho in H1, H2. rewrite P2 in H1, H2. exact (joined_zero tbl _ rho ids im c H1 H2 P1 v Hv).
      - rewrite <- C1, <- (S1 Spublics) by discriminate. exact (at_any si m1 tbl im kcm pcm pconst (kpow (kroot nb) i)). }
    assert (HS : forall i, i < n -> val (elem (m_sec m2 Sq_2ns) qdim 0 qdim i) = peval Q (cpt e i)).
    { intros i Hi. specialize (R11 i Hi). rewrite Q2 in R11. exact (kcancel _ _ _ (cpt_pow e nb i ltac:(lia) B1') R11). }
    assert (X4 : m_sec m2 Scm4_2ns = m_sec m Scm4_2ns) by (rewrite R5 by discriminate; apply S1; discriminate).
    destruct (quotient_columns workers qdim qdeg e nb (m_sec m2 Sq_2ns) (m_sec m2 Scm4_2ns) Q br) as [qq1 [br1 [qq2 [cm4 [br2 [U1 [U2 [U3 [U4 [U5 [U6 U7]]]]]]]]]]]; try assumption; try lia.
    { rewrite X4, <- W3. exact (proj1 M8). }
    { rewrite X4. exact (proj2 M8). }
    pose (m3 := m_set m2 Scm4_2ns cm4).
    destruct (MerkleProof.merkelize_total perm perm_len workers (map c0 cm4) (si_width si Scm4_2ns) n Hwk Hn) as [t4 Et4]; [rewrite map_length, U5, W3; reflexivity | exact Hops |].
    destruct (MerkleProof.complete perm perm_len workers (map c0 cm4) (si_width si Scm4_2ns) n t4 0 Hn) as [mp [root4 [_ [Er4 _]]]]; [rewrite map_length, U5, W3; reflexivity | exact Et4 | lia |].
    destruct (put_ok perm perm_len tr1 [root4] Wt1) as [tr2 [T2 Wt2]].
    destruct (challenge_ok perm perm_len tr2 Wt2) as [xi [tr4 [T3 Wt4]]].
    assert (Ch3 : m_sec m3 Schallenge = l4) by (unfold m3; rewrite m_set_other by discriminate; rewrite R5 by discriminate; exact C1).
    destruct (set_challenge_ok m3 7 xi) as [l7 [E7 [L7l N7]]]; [rewrite Ch3; lia|].
    exists (m_set m3 Schallenge l7), t4, root4, vc, xi, tr4, Q.
    assert (S7 : forall s, s <> Schallenge -> m_sec (m_set m3 Schallenge l7) s = m_sec m3 s) by (intros s Hs; apply m_set_other; congruence).
    assert (Y4 : m_sec (m_set m3 Schallenge l7) Scm4_2ns = cm4) by (rewrite S7 by discriminate; apply m_set_same).
    assert (SA : forall s, s <> Stmp -> s <> Sq_2ns -> s <> Scm4_2ns -> s <> Schallenge -> m_sec (m_set m3 Schallenge l7) s = m_sec m s).
    { intros s H1 H2 H3 H4. rewrite S7 by exact H4. unfold m3. rewrite m_set_other by congruence. rewrite R5 by assumption. apply S1. exact H4. }
    split.
    - unfold quotient_phase. rewrite T1, bindE. cbv beta iota. rewrite E4, bindE, G10. cbn [pg_step4 pg_qs]. rewrite seq_length, R4, bindE. cbv zeta. rewrite U1. cbv beta iota. rewrite bindE.
      change (e_exp (e_inv (e_from SHIFT)) (Z.of_nat N)) with (q_shift N). rewrite U2, bindE. rewrite (proj2 (Nat.ltb_lt 0 qdeg)) by lia. rewrite U3. cbv beta iota. rewrite bindE. fold m3.
      unfold merkelize_sec. assert (Z3 : m_sec m3 Scm4_2ns = cm4) by apply m_set_same. rewrite Z3, (words_ok cm4 U6), bindE, Et4. cbn [unwrap]. rewrite bindE, Er4, bindE, T2, bindE, T3, bindE. cbv beta iota.
      rewrite E7, bindE. reflexivity.
    - constructor.
      + exists tr1, tr2. auto.
      + exact Wt4.
      + exact SA.
      + change (m_zi m2 = m_zi m). exact R8.
      + rewrite m_set_same. split; [rewrite L7l, Ch3, L4l; exact M5|]. intros k. rewrite N7, Ch3. destruct (k =? 7); [reflexivity|]. apply N4.
      + rewrite Y4, W3. split; [exact U5 | exact U6].
      + rewrite Y4. split; [exact Et4 | exact Er4].
      + intros k Hk. unfold pcm'. destruct (Nat.ltb_spec k kcm) as [Hlt|Hge].
        * destruct (M1 k Hlt) as [L [p [s [pos [dim [H1 [H2 [H3 H4]]]]]]]]. split; [exact L|]. exists p, s, pos, dim. split; [exact H1|]. split; [exact H2|].
          split; [apply (in_or_app [Scm1_2ns; Scm2_2ns; Scm3_2ns] [Scm4_2ns]); now left|]. rewrite SA; [exact H4 | | | |]; intros ->; cbn in H3; repeat (destruct H3 as [H3|H3]; [discriminate H3|]); exact H3.
        * destruct (B9 (k - kcm) ltac:(lia)) as [p [H1 H2]]. replace (kcm + (k - kcm)) with k in H1 by lia. split; [apply qpart_len|].
          exists p, Scm4_2ns, (qdim * (k - kcm)), qdim. split; [exact H1|]. split; [exact H2|]. split; [right; right; right; now left|]. rewrite Y4, W3.
          constructor; [destruct B7 as [->|[-> _]]; auto | | exact U5 | exact U6 | intros r Hr; apply U7; lia].
          replace (qdim * (k - kcm) + qdim) with (qdim * S (k - kcm)) by lia. apply Nat.mul_le_mono_l. lia.
      + exact Q1.
      + intros z rho v HA HD. rewrite <- Q2. apply (R2 z rho v); [|exact HD]. revert HA. unfold P4, Pv. rewrite S1 by discriminate. apply at_point_ext.
        * intros r Hr Hn'. unfold Lv, L4, leafp. rewrite C1, S1 by discriminate. unfold node_ok in Hr. destruct (n_ty r); try reflexivity; try (exfalso; apply Hn'; reflexivity).
          -- destruct (Nat.ltb_spec (n_id r) kcm) as [Hlt|Hge]; [|reflexivity]. unfold pcm'. rewrite (proj2 (Nat.ltb_lt _ _) Hlt). reflexivity.
          -- f_equal. apply nth_eq. rewrite m_set_same, N7, Ch3. destruct (Nat.eqb_spec (n_id r) 7); [lia | reflexivity].
        * intros i k p E. unfold Lv, L4, leafp. cbn [n_ty n_id n_prime N_new]. rewrite E. destruct (Nat.ltb_spec k kcm) as [Hlt|Hge]; [|reflexivity]. unfold pcm'. rewrite (proj2 (Nat.ltb_lt _ _) Hlt). reflexivity.
  Qed.
End Quotient.
