(* The whole prover: from the trace to a proof that the verifier accepts. *)
From Coq Require Import Ring Field Arith.
From Verif Require Import Base GlModel FrField F3gModel Cubic F3gProof ListAux PolyModel Roots PolyProof FftProof FftTop FriMath CodegenModel CodegenProof
  InterpModel InterpProof VerifierModel VerifierProof ImModel HashModel FftpModel FftpProof FftpBase FftpTop BrProof FriModel FriProof PolsModel PolsProof ProverModel ProverProof
  ParModel ParProof StarkMath StarkModel StarkGen StarkSrc StarkPoly StarkRow StarkQuot StarkEval StarkStep4 StarkTop StarkDone StageModel StarkExtend.
From Verif Require StarkToy.
From Verif Require MerkleProof.
Open Scope nat_scope.
Open Scope list_scope.
Open Scope res_scope.
Add Field K_field_stages : K_field.

Lemma den_ext tbl rho rho' : (forall r, rho r = rho' r) -> forall p e v, den tbl rho p e v -> den tbl rho' p e v.
Proof.
  intros H p e v D. induction D; unfold num in *; rewrite ?H; try (econstructor; eassumption).
Qed.

(** ** the trace as it is in memory *)
(* the column c of the trace: its section, position and dimension *)
Definition place (si : sinfo) (c : nat) : option (sec * nat * nat) :=
  match nth_error (si_cm_n si) c with Some p => nth_error (si_map si) p | None => None end.
Definition cell (si : sinfo) (m : mem) (c j : nat) : K :=
  match place si c with Some (s, pos, dim) => val (elem (m_sec m s) (si_width si s) pos dim j) | None => kzero end.
Definition ccell (si : sinfo) (m : mem) (c j : nat) : K := val (nth (c + j * si_nconst si) (m_sec m Sconst_n) e_ZERO).
(* the row a reference with or without prime means in row i *)
Definition nrow (si : sinfo) (i : nat) (prime : bool) : nat := if prime then (i + 1) mod 2 ^ si_nbits si else i.
Definition mem_row (si : sinfo) (im : list (nat * nat)) (kcm : nat) (m : mem) (ch : list F3G) (i : nat) (r : node) : F3G :=
  of_k (match n_ty r with
  | Ncm => if n_id r <? kcm then cell si m (n_id r) (nrow si i (n_prime r)) else kzero
  | Nconst => if n_id r <? si_nconst si then ccell si m (n_id r) (nrow si i (n_prime r)) else kzero
  | Nexp => match assoc Nat.eqb im (n_id r) with Some c => if c <? kcm then cell si m c (nrow si i (n_prime r)) else kzero | None => kzero end
  | Nx => kpow (kroot (si_nbits si)) i
  | Nnumber => match number_ref (n_value r) with Ok v => val v | _ => kzero end
  | Npublic => val (nth (n_id r) (m_sec m Spublics) e_ZERO)
  | Nchallenge => val (nth (n_id r) ch e_ZERO)
  | _ => kzero
  end).
(* every identity is zero in every row and every intermediate column is its expression, whatever challenge 4 is *)
Definition rows_ok (si : sinfo) (tbl : list expr) (ids : list nat) (ce : cexp) (kcm : nat) (m : mem) : Prop :=
  forall i ch, i < 2 ^ si_nbits si -> (forall k, k <> 4 -> nth k ch e_ZERO = nth k (m_sec m Schallenge) e_ZERO) ->
  let rho := mem_row si (ce_im ce) kcm m ch i in
  (forall j v, In j ids -> den (with_im (ce_im ce) (ce_tbl ce)) rho false (E_exp j false) v -> val v = kzero) /\
  (forall k x e v, In (k, x) (ce_im ce) -> nth_error tbl k = Some e -> den (with_im (ce_im ce) (ce_tbl ce)) rho false e v -> val v = val (rho (N_new Ncm x None false))).

Definition secs3 : list (sec * sec) := [(Scm1_n, Scm1_2ns); (Scm2_n, Scm2_2ns); (Scm3_n, Scm3_2ns)].
(* the columns of the trace and of the extended trace lie at the same places *)
Record layout (si : sinfo) (kcm : nat) : Prop := {
  la_width : forall a b, In (a, b) secs3 -> si_width si b = si_width si a /\ si_width si a <= MAX_OPS;
  la_const : si_nconst si <= MAX_OPS;
  la_cm4 : si_width si Scm4_n = si_width si Scm4_2ns /\ si_width si Scm4_2ns / 8 <= MAX_OPS;
  la_col : forall c, c < kcm -> exists a b pos dim q, In (a, b) secs3 /\ place si c = Some (a, pos, dim) /\
    nth_error (si_cm_2ns si) c = Some q /\ nth_error (si_map si) q = Some (b, pos, dim) /\ (dim = 1 \/ dim = 3) /\ pos + dim <= si_width si a }.

Definition tpol (si : sinfo) (m : mem) (c : nat) : list K :=
  match place si c with Some (s, pos, dim) => ipol (si_nbits si) (m_sec m s) (si_width si s) pos dim | None => [] end.
Definition ctpol (si : sinfo) (m : mem) (c : nat) : list K := ipol (si_nbits si) (m_sec m Sconst_n) (si_nconst si) c 1.
Lemma nrow_lt si i p : i < 2 ^ si_nbits si -> nrow si i p < 2 ^ si_nbits si.
Proof. intros H. unfold nrow. destruct p; [apply Nat.mod_upper_bound; lia | exact H]. Qed.
Lemma at_row si i p : si_nbits si <= 31 -> i < 2 ^ si_nbits si -> at_pt (si_nbits si) (kpow (kroot (si_nbits si)) i) p = kpow (kroot (si_nbits si)) (nrow si i p).
Proof. intros Hn Hi. unfold at_pt, nrow. destruct p; [apply root_wrap; assumption | reflexivity]. Qed.
Lemma tpol_row si kcm m c i p : layout si kcm -> c < kcm -> si_nbits si <= 31 -> i < 2 ^ si_nbits si ->
  peval (tpol si m c) (at_pt (si_nbits si) (kpow (kroot (si_nbits si)) i) p) = cell si m c (nrow si i p).
Proof.
  intros L Hc Hn Hi. destruct (la_col _ _ L c Hc) as [a [b [pos [dim [q [_ [P _]]]]]]]. unfold tpol, cell. rewrite P, at_row by assumption. apply ipol_at; [exact Hn | apply nrow_lt, Hi].
Qed.
Lemma ctpol_row si m c i p : si_nbits si <= 31 -> i < 2 ^ si_nbits si ->
  peval (ctpol si m c) (at_pt (si_nbits si) (kpow (kroot (si_nbits si)) i) p) = ccell si m c (nrow si i p).
Proof. intros Hn Hi. unfold ctpol, ccell. rewrite at_row by assumption. rewrite ipol_at by (try exact Hn; apply nrow_lt, Hi). reflexivity. Qed.
Lemma mem_row_trace si im kcm m ch i r : layout si kcm -> si_nbits si <= 31 -> i < 2 ^ si_nbits si ->
  trace_row si im kcm (tpol si m) (ctpol si m) (m_sec m Spublics) ch i r = mem_row si im kcm m ch i r.
Proof.
  intros L Hn Hi. unfold trace_row, mem_row, leafp. refine (f_equal of_k _). destruct (n_ty r); try reflexivity.
  - destruct (assoc Nat.eqb im (n_id r)) as [c|]; [|reflexivity]. destruct (Nat.ltb_spec c kcm); [|reflexivity]. eapply tpol_row; eassumption.
  - destruct (Nat.ltb_spec (n_id r) kcm); [|reflexivity]. eapply tpol_row; eassumption.
  - destruct (Nat.ltb_spec (n_id r) (si_nconst si)); [|reflexivity]. apply ctpol_row; assumption.
Qed.
Lemma rows_trace si tbl ids ce kcm m : layout si kcm -> si_nbits si <= 31 -> rows_ok si tbl ids ce kcm m -> trace_ok si tbl ids ce kcm (tpol si m) (ctpol si m) m.
Proof.
  intros L Hn H i ch Hi Hch rho. destruct (H i ch Hi Hch) as [H1 H2].
  assert (R : forall r, rho r = mem_row si (ce_im ce) kcm m ch i r) by (intros r; apply mem_row_trace; assumption).
  split.
  - intros j v Hj D. eapply H1; [exact Hj|]. eapply den_ext; [|exact D]. exact R.
  - intros k x e v Hk He D. rewrite R. eapply H2; [exact Hk | exact He|]. eapply den_ext; [|exact D]. exact R.
Qed.

(** ** the constants *)
Definition const_table (cp : pols) : list F3G := map e_from (rowmajor (nPols cp) (p_n cp) (p_array cp)).
Lemma from_base l : Forall vbase (map e_from l).
Proof. apply Forall_forall. intros x Hx. apply in_map_iff in Hx. destruct Hx as [y [<- _]]. now exists y. Qed.
Lemma zeros_base n : Forall vbase (repeat e_ZERO n).
Proof. apply Forall_forall. intros x Hx. apply repeat_spec in Hx. subst x. now exists f0. Qed.
Lemma table_len cp : length (const_table cp) = p_n cp * nPols cp.
Proof. unfold const_table. rewrite map_length, rowmajor_len. apply Nat.mul_comm. Qed.
Lemma setup_ok perm workers nb e ncon cp br tc br' : (forall i s, length (perm i s) = 12) -> workers <> 0 -> 1 <= nb <= e -> e <= 31 -> ncon <= MAX_OPS -> shaped cp -> 0 < nPols cp -> p_n cp = 2 ^ nb ->
  nice br -> setup_consts perm workers nb e ncon cp br = (Ok tc, br') ->
  nPols cp = ncon /\ nice br' /\ exists rc, tree_root tc = Ok rc /\ merkelize perm workers (t_elements tc) ncon (2 ^ e) = Ok tc /\ length (t_elements tc) = 2 ^ e * ncon /\
    forall c, c < ncon -> column e (map e_from (t_elements tc)) ncon c 1 (ipol nb (const_table cp) ncon c 1).
Proof.
  intros Hp Hw Hn He Hm Sh Hnp Hpn Nb E. unfold setup_consts in E. destruct (Nat.eqb_spec (nPols cp) ncon) as [En|En]; cbn [negb] in E; [|discriminate E]. split; [exact En|].
  rewrite (write_buff_spec cp Sh Hnp) in E. fold (const_table cp) in E.
  assert (T : length (const_table cp) = 2 ^ nb * ncon) by (rewrite table_len, Hpn, En; reflexivity).
  destruct (interpolate_cols workers nb e ncon (const_table cp) (repeat e_ZERO (2 ^ e * ncon)) br) as [out [br1 [I1 [I2 [I3 [I4 I5]]]]]]; try assumption; try lia.
  - right. apply Forall_forall. intros x Hx. apply repeat_spec in Hx. exact Hx.
  - apply from_base.
  - apply repeat_length.
  - apply zeros_base.
  - rewrite I1 in E. cbv beta iota in E. apply pair_equal_spec in E. destruct E as [E <-]. split; [exact I2|]. rewrite bindE, (words_ok out I4), bindE in E. rewrite En, Hpn in E.
    replace (2 ^ nb * 2 ^ (e - nb)) with (2 ^ e) in E by (rewrite <- Nat.pow_add_r; f_equal; lia).
    pose proof (merkelize_elements perm _ _ _ _ _ E) as El.
    assert (H2 : 2 <= 2 ^ e) by (change 2 with (2 ^ 1) at 1; apply Nat.pow_le_mono_r; lia).
    destruct (MerkleProof.complete perm Hp workers (map c0 out) ncon (2 ^ e) tc 0) as [mp [r [_ [Er _]]]]; [exact H2 | rewrite map_length; exact I3 | exact E | lia|].
    exists r. split; [exact Er|]. rewrite El. split; [exact E|]. split; [rewrite map_length; exact I3|]. intros c Hc. rewrite (base_back out I4). apply I5; lia.
Qed.

(** ** the memory at the start *)
Lemma start_ok si cp kp tc m0 : 1 <= si_nbits si <= si_nbits_ext si -> si_nbits_ext si <= 31 -> shaped cp -> 0 < nPols cp -> shaped kp -> 0 < nPols kp -> start_mem si cp kp tc = Ok m0 ->
  m_sec m0 Scm1_n = const_table cp /\ m_sec m0 Sconst_n = const_table kp /\ m_sec m0 Sconst_2ns = map e_from (t_elements tc) /\ m_zi m0 = build_Zh_Inv (si_nbits si) (si_nbits_ext si - si_nbits si) 0 /\
  m_sec m0 Sx_2ns = ext_points (e_from (root (si_nbits_ext si))) (2 ^ si_nbits_ext si) /\ m_sec m0 Schallenge = repeat e_ZERO 8 /\ m_sec m0 Sevals = [] /\
  m_sec m0 Scm1_2ns = repeat e_ZERO (si_width si Scm1_n * 2 ^ si_nbits_ext si) /\ m_sec m0 Scm2_2ns = repeat e_ZERO (si_width si Scm2_n * 2 ^ si_nbits_ext si) /\
  m_sec m0 Scm3_2ns = repeat e_ZERO (si_width si Scm3_n * 2 ^ si_nbits_ext si) /\ m_sec m0 Scm4_2ns = repeat e_ZERO (si_width si Scm4_n * 2 ^ si_nbits_ext si) /\
  m_sec m0 Sq_2ns = repeat e_ZERO (si_qdim si * 2 ^ si_nbits_ext si) /\ m_sec m0 Sf_2ns = repeat e_ZERO (3 * 2 ^ si_nbits_ext si) /\
  m_sec m0 Scm2_n = repeat e_ZERO (si_width si Scm2_n * 2 ^ si_nbits si) /\ m_sec m0 Scm3_n = repeat e_ZERO (si_width si Scm3_n * 2 ^ si_nbits si) /\ m_sec m0 Stmpexp_n = repeat e_ZERO (si_width si Stmpexp_n * 2 ^ si_nbits si) /\
  m_sec m0 Sx_n = map (fun x => e_mul e_ONE x) (powers (e_from (root (si_nbits si))) (2 ^ si_nbits si)).
Proof.
  intros Hn He S1 P1 S2 P2 E. unfold start_mem in E. cbv zeta in E. rewrite (write_buff_spec cp S1 P1), bindE, MG_root, bindE, MG_root, bindE, (write_buff_spec kp S2 P2), bindE in E by lia.
  fold (const_table cp) (const_table kp) in E. unfold to_extend in E. destruct (_ =? _); [|discriminate E]. apply ok_inj in E. subst m0.
  repeat (split; [first [apply m_set_same | rewrite m_set_other by discriminate; reflexivity | reflexivity]|]). rewrite m_set_other by discriminate. reflexivity.
Qed.

Ltac tout := unfold touched; cbn [In]; intros X; repeat (destruct X as [X|X]; [discriminate X|]); exact X.

Section Gen.
  Variable perm : list Fr -> list Fr -> list Fr.
  Hypothesis perm_len : forall i s, length (perm i s) = 12.
  Variables (fuel gfuel workers w0 : nat) (si : sinfo) (sg : stageprog) (tbl : list expr) (ids : list nat) (ncm md : nat) (ce : cexp) (pg : program) (cp kp : pols) (tc : tree) (br0 br : brstate).
  Local Notation kcm := (ncm + length (ce_im ce)).
  (* the machine: its layout and programs; publics only need temporaries *)
  Record machine : Prop := {
    mc_cfg : stark_cfg fuel gfuel si tbl ids ncm md ce pg (length (st_publics sg));
    mc_bits : si_nbits_ext si <= 24;
    mc_layout : layout si kcm;
    mc_pub : Forall (fun s => tmp_only (sg_first s)) (st_pubcode sg);
    mc_h : cm_in si (st_ncm1 sg) (st_ncm1 sg + 2 * length (st_pu sg)) Scm2_n;
    mc_z : cm_in si (st_ncm1 sg + 2 * length (st_pu sg)) (st_ncm1 sg + 2 * length (st_pu sg) + length (st_pu sg ++ st_pe sg ++ st_ci sg)) Scm3_n }.
  (* the inputs: the committed table, the constants and their tree *)
  Record inputs : Prop := {
    in_cm : shaped cp /\ 0 < nPols cp /\ p_n cp = 2 ^ si_nbits si /\ nPols cp = si_width si Scm1_n;
    in_const : shaped kp /\ 0 < nPols kp /\ p_n kp = 2 ^ si_nbits si;
    in_br : nice br0;
    in_setup : setup_consts perm w0 (si_nbits si) (si_nbits_ext si) (si_nconst si) kp br0 = (Ok tc, br) }.
  Theorem stages_mem m0 m t1 t2 t3 tr br' : workers <> 0 -> w0 <> 0 -> machine -> inputs -> start_mem si cp kp tc = Ok m0 ->
    stages perm workers si sg m0 br = Ok (m, t1, t2, t3, tr, br') -> full si m Scm2_n -> full si m Scm3_n ->
    Forall F3gProof.wf (m_sec m Spublics) -> (si_qdim si = 1 -> Forall (fun v => d3 v = false) (m_sec m Spublics)) ->
    exists r1 r2 r3 rc, stark_mem si kcm (tpol si m) (ctpol si m) m /\ length (m_sec m Spublics) = length (st_publics sg) /\
      tree_of perm si m Scm1_2ns t1 r1 /\ tree_of perm si m Scm2_2ns t2 r2 /\ tree_of perm si m Scm3_2ns t3 r3 /\ tree_of perm si m Sconst_2ns tc rc /\
      first_rounds perm (m_sec m Spublics) r1 r2 r3 (m_sec m Schallenge) tr /\ nice br' /\ tree_root tc = Ok rc.
  Proof.
    intros Hw Hw0 [C Hb24 La Hpb Hh Hz] [[I1 [I2 [I3 I4]]] [J1 [J2 J3]] Hbr Hsu] Es Eg F2 F3 Wp Dp.
    destruct (cf_bits _ _ _ _ _ _ _ _ _ _ C) as [B1 B2].
    destruct (start_ok _ _ _ _ _ B1 B2 I1 I2 J1 J2 Es) as [A1 [A2 [A3 [A4 [A5 [A6 [A7 [A8 [A9 [A10 [A11 [A12 [A13 [A14 [A15 _]]]]]]]]]]]]]]].
    destruct (setup_ok _ _ _ _ _ _ _ _ _ perm_len Hw0 B1 B2 (la_const _ _ La) J1 J2 J3 Hbr Hsu) as [K1 [K2 [rc [K3 [K4 [K5 K6]]]]]].
    destruct (stages_inv perm perm_len workers si sg Hw (conj B1 Hb24)) with (m0 := m0) (br := br) (m := m) (t1 := t1) (t2 := t2) (t3 := t3) (tr := tr) (br' := br')
      as [r1 [r2 [r3 [S1 [H1 [H2 [H3 [N1 [R1 [L1 [W1 [ma [P1 P2]]]]]]]]]]]]]; try assumption.
    { intros s Hs. cbn in Hs. destruct Hs as [<-|[<-|[<-|[]]]]; eapply (la_width _ _ La); [left | right; left | right; right; left]; reflexivity. }
    { split; rewrite A1; [rewrite table_len, I3, I4; reflexivity | apply from_base]. }
    { rewrite A8, repeat_length. apply Nat.mul_comm. }
    { rewrite A9, repeat_length. apply Nat.mul_comm. }
    { rewrite A10, repeat_length. apply Nat.mul_comm. }
    assert (U : forall s, ~ In s touched -> m_sec m s = m_sec m0 s) by exact (proj1 S1).
    assert (V1 : si_width si Scm1_2ns = si_width si Scm1_n) by (eapply (la_width _ _ La); left; reflexivity).
    assert (V2 : si_width si Scm2_2ns = si_width si Scm2_n) by (eapply (la_width _ _ La); right; left; reflexivity).
    assert (V3 : si_width si Scm3_2ns = si_width si Scm3_n) by (eapply (la_width _ _ La); right; right; left; reflexivity).
    assert (Kc : m_sec m Sconst_2ns = map e_from (t_elements tc)) by (rewrite U by tout; exact A3).
    assert (Kn : m_sec m Sconst_n = const_table kp) by (rewrite U by tout; exact A2).
    assert (Kx : m_sec m Sx_2ns = ext_points (e_from (root (si_nbits_ext si))) (2 ^ si_nbits_ext si)) by (rewrite U by tout; exact A5).
    destruct (cf_width _ _ _ _ _ _ _ _ _ _ C) as [Wq [Wf W4]].
    exists r1, r2, r3, rc. split; [|split; [|split; [|split; [|split; [|split; [|split; [|split]]]]]]].
    - constructor.
      + intros c Hc. destruct (la_col _ _ La c Hc) as [a [b [pos [dim [q [X1 [X2 [X3 [X4 [X5 X6]]]]]]]]]]. unfold tpol. rewrite X2. split; [apply ipol_len|].
        exists q, b, pos, dim. split; [exact X3|]. split; [exact X4|]. cbn in X1. destruct X1 as [X1|[X1|[X1|[]]]]; injection X1 as <- <-.
        * split; [now left|]. rewrite V1. apply (he_col _ _ _ _ _ _ _ H1); assumption.
        * split; [right; now left|]. rewrite V2. apply (he_col _ _ _ _ _ _ _ H2); assumption.
        * split; [right; right; now left|]. rewrite V3. apply (he_col _ _ _ _ _ _ _ H3); assumption.
      + intros c Hc. unfold ctpol. split; [apply ipol_len|]. rewrite Kc, Kn. apply K6. exact Hc.
      + assert (Bx : Forall vbase (m_sec m Sx_2ns)).
        { rewrite Kx. apply Forall_forall. intros v Hv. apply in_map_iff in Hv. destruct Hv as [r [<- _]]. apply StarkToy.base_mul; [now exists SHIFT | apply StarkToy.exp_base]. }
        assert (Bc : Forall vbase (m_sec m Sconst_2ns)) by (rewrite Kc; apply from_base).
        assert (G : forall l, Forall vbase l -> Forall (fun v => d3 v = false) l) by (intros l; apply Forall_impl; exact vbase_d3).
        split; [|split; [|split; [exact Wp|split; [exact W1 | rewrite U by tout; rewrite A7; constructor]]]].
        * split; [|split; [intros X; discriminate X | intros i; rewrite (proj2 S1), A4; reflexivity]]. intros s Hs. cbn in Hs.
          destruct Hs as [<-|[<-|[<-|[<-|[<-|[<-|[]]]]]]]; cbn [sec_width step_dom].
          -- rewrite V1. split; [exact (he_len _ _ _ _ _ _ _ H1) | apply G, (he_base _ _ _ _ _ _ _ H1)].
          -- rewrite V2. split; [exact (he_len _ _ _ _ _ _ _ H2) | apply G, (he_base _ _ _ _ _ _ _ H2)].
          -- rewrite V3. split; [exact (he_len _ _ _ _ _ _ _ H3) | apply G, (he_base _ _ _ _ _ _ _ H3)].
          -- split; [|exact (G _ Bc)]. rewrite Kc, map_length. exact K5.
          -- split; [|exact (G _ Bx)]. rewrite Kx. unfold ext_points. rewrite map_length, seq_length. symmetry. apply Nat.mul_1_r.
          -- rewrite U by tout. rewrite A12, repeat_length, Wq. split; [apply Nat.mul_comm|]. apply G, zeros_base.
        * intros s Hs. cbn in Hs. destruct Hs as [<-|[<-|[<-|[<-|[<-|[]]]]]]; [exact (he_base _ _ _ _ _ _ _ H1) | exact (he_base _ _ _ _ _ _ _ H2) | exact (he_base _ _ _ _ _ _ _ H3) | exact Bc | exact Bx].
      + exact Kx.
      + exact L1.
      + rewrite U by tout. rewrite A12. apply Forall_forall. intros x Hx. apply repeat_spec in Hx. exact Hx.
      + rewrite U by tout. rewrite A13. split; [rewrite repeat_length; apply Nat.mul_comm|]. apply Forall_forall. intros x Hx. apply repeat_spec in Hx. exact Hx.
      + rewrite U by tout. rewrite A11. split; [rewrite repeat_length, (proj1 (la_cm4 _ _ La)); apply Nat.mul_comm | apply zeros_base].
      + exact Dp.
    - rewrite P2. exact (publics_len _ _ _ _ Hpb P1).
    - split; [|exact (he_root _ _ _ _ _ _ _ H1)]. cbn [sec_width]. rewrite V1. exact (he_tree _ _ _ _ _ _ _ H1).
    - split; [|exact (he_root _ _ _ _ _ _ _ H2)]. cbn [sec_width]. rewrite V2. exact (he_tree _ _ _ _ _ _ _ H2).
    - split; [|exact (he_root _ _ _ _ _ _ _ H3)]. cbn [sec_width]. rewrite V3. exact (he_tree _ _ _ _ _ _ _ H3).
    - split; [|exact K3]. cbn [sec_width]. rewrite Kc. exists w0. rewrite map_map. rewrite map_ext with (g := fun x => x) by reflexivity. rewrite map_id. exact K4.
    - exact R1.
    - exact N1.
    - exact K3.
  Qed.

  Theorem gen_complete m0 m t1 t2 t3 tr br' rest nq : workers <> 0 -> w0 <> 0 -> machine -> inputs -> start_mem si cp kp tc = Ok m0 ->
    stages perm workers si sg m0 br = Ok (m, t1, t2, t3, tr, br') -> full si m Scm2_n -> full si m Scm3_n ->
    Forall F3gProof.wf (m_sec m Spublics) -> (si_qdim si = 1 -> Forall (fun v => d3 v = false) (m_sec m Spublics)) ->
    rows_ok si tbl ids ce kcm m -> chunks_ok si workers -> steps_ok (si_nbits_ext si) rest -> 0 < nq ->
    exists rc m4 t4 root4 xi tr4, tree_root tc = Ok rc /\ quotient_phase perm workers si pg m tr br' = Ok (m4, t4, root4, xi, tr4) /\
      ((forall r, r < 2 ^ si_nbits_ext si -> val xi <> cpt (si_nbits_ext si) r) ->
       exists p, stark_gen perm workers si sg pg (si_nbits_ext si :: rest) nq cp kp tc br = Ok p /\ sp_publics p = m_sec m Spublics /\
         stark_verify perm si pg (si_nbits_ext si :: rest) nq rc p = Ok true).
  Proof.
    intros Hw Hw0 Hm Hi Es Eg F2 F3 Wp Dp Hr Hc Hs Hq.
    destruct (stages_mem _ _ _ _ _ _ _ Hw Hw0 Hm Hi Es Eg F2 F3 Wp Dp) as [r1 [r2 [r3 [rc [M [Lp [T1 [T2 [T3 [Tc [R [Nb Rc]]]]]]]]]]]].
    destruct Hm as [C Hb24 La _ _ _]. destruct (cf_bits _ _ _ _ _ _ _ _ _ _ C) as [B1 B2].
    rewrite <- Lp in C.
    destruct (stark_complete perm fuel gfuel workers si tbl ids ncm md ce pg m (tpol si m) (ctpol si m) t1 t2 t3 tc r1 r2 r3 rc tr br' rest nq perm_len C M) as [m4 [t4 [root4 [xi [tr4 [Q H]]]]]];
      try assumption; [apply rows_trace; [exact La | lia | exact Hr] | apply (la_cm4 _ _ La)|].
    exists rc, m4, t4, root4, xi, tr4. split; [exact Rc|]. split; [exact Q|]. intros Hx. destruct (H Hx) as [p [P1 [P2 P3]]]. exists p. split; [|split; [exact P2 | exact P3]].
    unfold stark_gen. rewrite Es, bindE, Eg, bindE. exact P1.
  Qed.
End Gen.
