(* Proofs about ParModel.v: evaluating a block in chunks gives the columns of evaluating it row by row. *)
From Verif Require Import Base GlModel FrField F3gModel ListAux PolyModel ProverModel CodegenModel InterpModel HashModel ParModel Roots ProverProof BnProof.
Open Scope nat_scope.
Open Scope res_scope.

Lemma sec_eqb_eq a b : sec_eqb a b = true <-> a = b.
Proof. destruct a, b; split; intros H; try reflexivity; discriminate H. Qed.
Lemma sec_eqb_refl a : sec_eqb a a = true.
Proof. now apply sec_eqb_eq. Qed.
Lemma m_set_same m s l : m_sec (m_set m s l) s = l.
Proof. unfold m_set. cbn [m_sec]. now rewrite sec_eqb_refl. Qed.
Lemma m_set_other m s l s' : s' <> s -> m_sec (m_set m s l) s' = m_sec m s'.
Proof.
  intros H. unfold m_set. cbn [m_sec]. destruct (sec_eqb s' s) eqn:E; [|reflexivity].
  apply sec_eqb_eq in E. contradiction.
Qed.
Lemma sec_dec (a b : sec) : {a = b} + {a <> b}.
Proof. decide equality. Defined.

(* ---------- what a block may do for its rows to be independent ---------- *)
(* the sections that are indexed without a row *)
Definition global (s : sec) : bool := match s with Spublics | Schallenge | Sevals => true | _ => false end.
(* the number of cells of a reference *)
Definition cells (three : bool) : nat := if three then 3 else 1.
(* the arguments of an operation that leaves a result *)
Definition op_args (o : iop) : option (list operand) :=
  match o with
  | IAdd a b | ISub a b | IMul a b => Some [a; b]
  | ICopy a => Some [a]
  | _ => None
  end.

Section Local.
  Variables (si : sinfo) (st : pstep).
  (* the columns the block writes, and the temporaries that may hold an extension element *)
  Variables (W : sec -> nat -> bool) (td : nat -> bool) (tused : nat).
  Notation n := (par_n si st).
  Notation next := (par_next si st).
  Notation w := (sec_width si).

  (* [D]: temporaries already assigned in this row. A column that is not written may be read at the row
     or later by at most [next]; a written column only at the row itself. *)
  Definition readable (m : mem) (D : list nat) (o : operand) : Prop :=
    match o with
    | Vari _ => True
    | Refer r =>
        match r_sym r with
        | RSec s =>
            if sec_eqb s Stmp then In (r_off r) D /\ r_size r = 0 /\ r_three r = false
            else if global s then r_off r < length (m_sec m s) /\ r_size r = 0 /\ r_three r = false
            else r_mod r = n /\ r_size r = w s /\ r_off r + cells (r_three r) <= w s /\
                 ((In s (step_in st) /\ r_next r <= next /\
                   forall c, r_off r <= c < r_off r + cells (r_three r) -> W s c = false) \/
                  (In s (step_in st ++ step_out st) /\ r_next r = 0 /\
                   forall c, r_off r <= c < r_off r + cells (r_three r) -> W s c = true))
        | RXdiv | RXdivW => step_xdiv st = true /\ r_off r = 0 /\ r_next r = 0 /\ r_size r = 3 /\ r_mod r = n
        | RZi => True
        end
    end.
  (* may the operand be an extension element *)
  Definition wide (m : mem) (o : operand) : bool :=
    match o with
    | Vari v => d3 v
    | Refer r =>
        match r_sym r with
        | RSec s => if sec_eqb s Stmp then td (r_off r) else if global s then existsb d3 (m_sec m s) else r_three r
        | RXdiv | RXdivW => true
        | RZi => false
        end
    end.
  Definition writable (r : iref) : Prop :=
    match r_sym r with
    | RSec s =>
        if sec_eqb s Stmp then r_off r < tused /\ r_size r = 0
        else In s (step_out st) /\ r_mod r = n /\ r_size r = w s /\ r_next r = 0 /\ r_off r + cells (r_three r) <= w s /\
             forall c, r_off r <= c < r_off r + cells (r_three r) -> W s c = true
    | _ => False
    end.
  Definition wide_dest (r : iref) : bool :=
    match r_sym r with RSec s => if sec_eqb s Stmp then td (r_off r) else r_three r | _ => false end.
  Definition defines (r : iref) (D : list nat) : list nat :=
    match r_sym r with RSec s => if sec_eqb s Stmp then r_off r :: D else D | _ => D end.
  Fixpoint row_local (m : mem) (D : list nat) (l : list iop) : Prop :=
    match l with
    | [] => True
    | o :: IWrite r :: rest =>
        match op_args o with
        | Some args =>
            Forall (readable m D) args /\ writable r /\
            (wide_dest r = false -> Forall (fun a => wide m a = false) args) /\
            row_local m (defines r D) rest
        | None => False
        end
    | _ => False
    end.

  (* the memory the prover allocates: full sections of base elements *)
  Definition mem_ok (m : mem) : Prop :=
    (forall s, In s (step_in st ++ step_out st) ->
       length (m_sec m s) = n * w s /\ Forall (fun v => d3 v = false) (m_sec m s)) /\
    (step_xdiv st = true -> length (m_xdiv m) = n * 3 /\ length (m_xdivw m) = n * 3) /\
    (forall i, m_zi m i = build_Zh_Inv (si_nbits si) (si_nbits_ext si - si_nbits si) 0 i).
  (* written columns of the sections that are only written start as zero *)
  Definition out_zero (m : mem) : Prop :=
    forall s r c, In s (step_out st) -> ~ In s (step_in st) -> r < n -> c < w s -> W s c = true ->
      nth_error (m_sec m s) (r * w s + c) = Some e_ZERO.
End Local.

Lemma step_secs st s : In s (step_in st ++ step_out st) -> s <> Stmp /\ global s = false.
Proof.
  intros H. apply in_app_or in H.
  destruct st; cbn [step_in step_out In] in H; repeat destruct H as [H|H]; try contradiction; subst s; split; try reflexivity; discriminate.
Qed.

Lemma d3_add a b : d3 (e_add a b) = d3 a || d3 b.
Proof. unfold e_add. destruct (d3 a), (d3 b); reflexivity. Qed.
Lemma d3_sub a b : d3 (e_sub a b) = d3 a || d3 b.
Proof. unfold e_sub. destruct (d3 a), (d3 b); reflexivity. Qed.
Lemma d3_mul a b : d3 (e_mul a b) = d3 a || d3 b.
Proof. unfold e_mul. destruct (d3 a), (d3 b); reflexivity. Qed.

Lemma zh_table_base k : forall sn u g, d3 sn = false -> d3 u = false -> d3 g = false ->
  Forall (fun v => d3 v = false) (zh_table k sn u g).
Proof.
  induction k as [|k IH]; intros sn u g Hs Hu Hg; cbn [zh_table]; constructor.
  - unfold e_inv. rewrite d3_sub, d3_mul, Hs, Hu. reflexivity.
  - apply IH; try assumption. rewrite d3_mul, Hu, Hg. reflexivity.
Qed.
Lemma zh_shift_base k : forall sn, d3 sn = false -> d3 (zh_shift k sn) = false.
Proof. induction k as [|k IH]; intros sn H; cbn [zh_shift]; [exact H|]. apply IH. rewrite d3_mul, H. reflexivity. Qed.
Lemma zh_base nb eb off i v : build_Zh_Inv nb eb off i = Ok v -> d3 v = false.
Proof.
  unfold build_Zh_Inv. destruct (MG eb) as [g| | |]; intros H; try discriminate H. cbv beta iota zeta delta [bind] in H.
  assert (Hb : Forall (fun v => d3 v = false) (zh_table (2 ^ eb) (zh_shift nb (e_from SHIFT)) e_ONE (e_from g))).
  { apply zh_table_base; try reflexivity. now apply zh_shift_base. }
  set (t := zh_table _ _ _ _) in *. clearbody t. unfold vget in H.
  destruct (nth_error t _) as [x|] eqn:E; [|discriminate H]. injection H as <-.
  rewrite Forall_forall in Hb. apply Hb. now apply nth_error_In in E.
Qed.
Lemma zh_offset nb eb off i : build_Zh_Inv nb eb off i = build_Zh_Inv nb eb 0 (off + i).
Proof. unfold build_Zh_Inv. replace (i + off) with (off + i + 0) by lia. reflexivity. Qed.
Lemma zh_ok nb eb off i : eb <= 32 -> exists v, build_Zh_Inv nb eb off i = Ok v.
Proof.
  intros H. unfold build_Zh_Inv. rewrite MG_root by exact H. cbn [bind]. rewrite zh_table_len.
  assert (Hm : 2 ^ eb <> 0) by (apply Nat.pow_nonzero; lia).
  pose proof (Nat.mod_upper_bound (i + off) (2 ^ eb) Hm) as Hlt.
  set (t := zh_table _ _ _ _). destruct (nth_error t ((i + off) mod 2 ^ eb)) as [x|] eqn:E.
  - exists x. now apply vget_some.
  - apply nth_error_None in E. unfold t in E. rewrite zh_table_len in E. lia.
Qed.

(* ---------- cells ---------- *)
Lemma row_idx w r c a off len : c < w -> off + len <= w ->
  (a * w + off <= r * w + c < a * w + off + len <-> r = a /\ off <= c < off + len).
Proof.
  intros Hc Ho. split.
  - intros [H1 H2]. destruct (Nat.lt_trichotomy r a) as [L|[->|L]].
    + pose proof (Nat.mul_le_mono_r (S r) a w L) as M. rewrite Nat.mul_succ_l in M. lia.
    + split; [reflexivity | lia].
    + pose proof (Nat.mul_le_mono_r (S a) r w L) as M. rewrite Nat.mul_succ_l in M. lia.
  - intros [-> H]. lia.
Qed.
Lemma row_idx_b w r c a off len : c < w -> off + len <= w ->
  ((a * w + off <=? r * w + c) && (r * w + c <? a * w + off + len)) = ((r =? a) && ((off <=? c) && (c <? off + len))).
Proof.
  intros Hc Ho. pose proof (row_idx w r c a off len Hc Ho) as H. apply eq_true_iff_eq.
  rewrite !andb_true_iff, Nat.eqb_eq, !Nat.leb_le, !Nat.ltb_lt. exact H.
Qed.
Lemma row_bound w r c n : c < w -> r < n -> r * w + c < n * w.
Proof. intros Hc Hr. pose proof (Nat.mul_le_mono_r (S r) n w Hr) as M. rewrite Nat.mul_succ_l in M. lia. Qed.
Lemma row_split w k n : k < n * w -> exists r c, k = r * w + c /\ r < n /\ c < w.
Proof.
  intros H. destruct w as [|w']; [rewrite Nat.mul_0_r in H; lia|]. set (w := S w') in *.
  exists (k / w), (k mod w). assert (Hw : w <> 0) by discriminate. split; [|split].
  - rewrite Nat.mul_comm. now apply Nat.div_mod.
  - apply Nat.div_lt_upper_bound; [exact Hw|]. rewrite Nat.mul_comm. exact H.
  - now apply Nat.mod_upper_bound.
Qed.

(* the cells a value takes in a section *)
Definition wcells (v : F3G) : list F3G := if d3 v then [e_from (c0 v); e_from (c1 v); e_from (c2 v)] else [v].
Lemma wcells_base v : Forall (fun x => d3 x = false) (wcells v).
Proof. unfold wcells. destruct (d3 v) eqn:E; repeat constructor. exact E. Qed.
Lemma wcells_len v : length (wcells v) = cells (d3 v).
Proof. unfold wcells. destruct (d3 v); reflexivity. Qed.

Lemma write_cells m r i v s : r_sym r = RSec s -> s <> Stmp ->
  get_i r i + length (wcells v) <= length (m_sec m s) ->
  exists l', write_ref m r i v = Ok (m_set m s l') /\ length l' = length (m_sec m s) /\
    forall k, nth_error l' k = if (get_i r i <=? k) && (k <? get_i r i + length (wcells v))
                               then nth_error (wcells v) (k - get_i r i) else nth_error (m_sec m s) k.
Proof.
  intros Hs Hne Hle. unfold write_ref. rewrite Hs. cbv zeta. set (a := get_i r i) in *. clearbody a.
  replace (sec_eqb s Stmp) with false by (symmetry; destruct (sec_eqb s Stmp) eqn:E; [apply sec_eqb_eq in E; contradiction | reflexivity]).
  rewrite orb_false_r. unfold wcells in *. destruct (d3 v); cbn [negb length] in *.
  - destruct (vset_spec (m_sec m s) a (e_from (c0 v)) ltac:(lia)) as [l1 [E1 [L1 N1]]].
    destruct (vset_spec l1 (a + 1) (e_from (c1 v)) ltac:(lia)) as [l2 [E2 [L2 N2]]].
    destruct (vset_spec l2 (a + 2) (e_from (c2 v)) ltac:(lia)) as [l3 [E3 [L3 N3]]].
    rewrite E1. cbn [bind]. rewrite E2. cbn [bind]. rewrite E3. cbn [bind]. exists l3. split; [reflexivity|]. split; [lia|].
    intros k. rewrite N3, N2, N1.
    destruct (Nat.leb_spec a k); destruct (Nat.ltb_spec k (a + 3)); cbn [andb];
      destruct (Nat.eqb_spec k (a + 2)); destruct (Nat.eqb_spec k (a + 1)); destruct (Nat.eqb_spec k a); try lia; try reflexivity; subst k.
    + replace (a + 2 - a) with 2 by lia. reflexivity.
    + replace (a + 1 - a) with 1 by lia. reflexivity.
    + rewrite Nat.sub_diag. reflexivity.
  - destruct (vset_spec (m_sec m s) a v ltac:(lia)) as [l1 [E1 [L1 N1]]]. rewrite E1. cbn [bind]. exists l1.
    split; [reflexivity|]. split; [lia|]. intros k. rewrite N1.
    destruct (Nat.leb_spec a k); destruct (Nat.ltb_spec k (a + 1)); cbn [andb]; destruct (Nat.eqb_spec k a); try lia; try reflexivity.
    subst k. rewrite Nat.sub_diag. reflexivity.
Qed.

(* ---------- one row in the whole memory and in a chunk ---------- *)
Section Chunk.
  Variables (si : sinfo) (st : pstep).
  Variables (W : sec -> nat -> bool) (td : nat -> bool) (tused : nat).
  Variable m0 : mem.
  Notation n := (par_n si st).
  Notation next := (par_next si st).
  Notation w := (sec_width si).
  Notation io := (step_in st ++ step_out st).

  Record rel (s0 cur : nat) (D : list nat) (G C : mem) : Prop := mkRel {
    rl_glob : forall s, global s = true -> m_sec G s = m_sec m0 s /\ m_sec C s = m_sec m0 s;
    rl_len : forall s, In s io -> length (m_sec G s) = n * w s /\ length (m_sec C s) = (cur + next) * w s;
    rl_base : forall s, In s io -> Forall (fun v => d3 v = false) (m_sec G s);
    rl_clean : forall s r c, In s (step_in st) -> r < cur + next -> c < w s -> W s c = false ->
      nth_error (m_sec C s) (r * w s + c) = nth_error (m_sec G s) (((s0 + r) mod n) * w s + c);
    rl_own : forall s r c, In s io -> r < cur -> c < w s -> W s c = true ->
      nth_error (m_sec C s) (r * w s + c) = nth_error (m_sec G s) ((s0 + r) * w s + c);
    rl_zero : forall s r c, In s (step_out st) -> ~ In s (step_in st) -> r < cur -> c < w s -> W s c = false ->
      nth_error (m_sec C s) (r * w s + c) = Some e_ZERO;
    rl_xdiv : step_xdiv st = true -> forall k, k < cur * 3 -> exists a b,
      nth_error (m_xdiv C) k = Some a /\ nth_error (m_xdiv G) (s0 * 3 + k) = Some a /\
      nth_error (m_xdivw C) k = Some b /\ nth_error (m_xdivw G) (s0 * 3 + k) = Some b;
    rl_zi : forall j, exists v, m_zi C j = Ok v /\ m_zi G (s0 + j) = Ok v /\ d3 v = false;
    rl_tmp : length (m_sec G Stmp) = tused /\ length (m_sec C Stmp) = tused /\
      forall id, In id D -> exists v, nth_error (m_sec G Stmp) id = Some v /\ nth_error (m_sec C Stmp) id = Some v /\
                 (d3 v = true -> td id = true) }.

  Definition frame (lo hi : nat) (G G' : mem) : Prop :=
    (forall s, s <> Stmp -> ~ In s (step_out st) -> m_sec G' s = m_sec G s) /\
    (m_xdiv G' = m_xdiv G /\ m_xdivw G' = m_xdivw G /\ m_zi G' = m_zi G) /\
    (forall s, In s (step_out st) -> length (m_sec G' s) = length (m_sec G s) /\
       forall r c, c < w s -> (r < lo \/ hi <= r \/ W s c = false) ->
         nth_error (m_sec G' s) (r * w s + c) = nth_error (m_sec G s) (r * w s + c)).
  Lemma frame_id lo hi G : frame lo hi G G.
  Proof. split; [|split; [|split]]; try reflexivity. repeat split. Qed.
  Lemma frame_comp lo mid hi A B C : lo <= mid <= hi -> frame lo mid A B -> frame mid hi B C -> frame lo hi A C.
  Proof.
    intros Hm [A1 [[A2 [A3 A4]] A5]] [B1 [[B2 [B3 B4]] B5]]. split; [|split].
    - intros s H1 H2. rewrite B1, A1 by assumption. reflexivity.
    - rewrite B2, A2, B3, A3, B4, A4. repeat split.
    - intros s Hs. destruct (A5 s Hs) as [L1 N1]. destruct (B5 s Hs) as [L2 N2]. split; [now rewrite L2|].
      intros r c Hc Hr. rewrite N2, N1; [reflexivity | exact Hc | | exact Hc |]; clear -Hm Hr; intuition lia.
  Qed.
  Lemma frame_same lo hi A B C : frame lo hi A B -> frame lo hi B C -> frame lo hi A C.
  Proof.
    intros [A1 [[A2 [A3 A4]] A5]] [B1 [[B2 [B3 B4]] B5]]. split; [|split].
    - intros s H1 H2. rewrite B1, A1 by assumption. reflexivity.
    - rewrite B2, A2, B3, A3, B4, A4. repeat split.
    - intros s Hs. destruct (A5 s Hs) as [L1 N1]. destruct (B5 s Hs) as [L2 N2]. split; [now rewrite L2|].
      intros r c Hc Hr. rewrite N2, N1 by assumption. reflexivity.
  Qed.

  Hypothesis Hn : n <> 0.
  Variables (s0 cur : nat).
  Hypothesis Hcur : s0 + cur <= n.
  Notation Rel := (rel s0 cur).

  Lemma base_at G s k v : Forall (fun v => d3 v = false) (m_sec G s) -> nth_error (m_sec G s) k = Some v -> d3 v = false.
  Proof. intros H E. rewrite Forall_forall in H. apply H. now apply nth_error_In in E. Qed.

  (* a cell of a readable reference *)
  Lemma cell_agree D G C s r c j : Rel D G C -> j < cur -> c < w s -> r <= next ->
    (In s (step_in st) /\ W s c = false) \/ (In s io /\ r = 0 /\ W s c = true) ->
    exists v, vget (m_sec G s) (c + ((s0 + j + r) mod n) * w s) = Ok v /\
              vget (m_sec C s) (c + ((j + r) mod n) * w s) = Ok v /\ d3 v = false.
  Proof.
    intros R Hj Hc Hr Hcase.
    assert (Hio : In s io) by (destruct Hcase as [[H _]|[H _]]; [apply in_or_app; now left | exact H]).
    destruct (rl_len _ _ _ _ _ R s Hio) as [LG LC].
    assert (Hrow : (s0 + j + r) mod n < n) by (apply Nat.mod_upper_bound; exact Hn).
    pose proof (row_bound (w s) _ c n Hc Hrow) as Hb. rewrite <- LG in Hb.
    rewrite (Nat.add_comm c (_ * _)), (Nat.add_comm c (_ * _)).
    destruct (nth_error (m_sec G s) ((s0 + j + r) mod n * w s + c)) as [v|] eqn:Ev; [|apply nth_error_None in Ev; lia].
    exists v. split; [now apply vget_some|]. split; [|exact (base_at _ _ _ _ (rl_base _ _ _ _ _ R s Hio) Ev)].
    apply vget_some. rewrite <- Ev. destruct Hcase as [[Hin Hw]|[_ [-> Hw]]].
    - assert (Hrr : (j + r) mod n < cur + next).
      { pose proof (Nat.mod_le (j + r) n Hn). lia. }
      rewrite (rl_clean _ _ _ _ _ R s _ c Hin Hrr Hc Hw). rewrite Nat.add_mod_idemp_r by exact Hn.
      rewrite Nat.add_assoc. reflexivity.
    - rewrite !Nat.add_0_r. rewrite !Nat.mod_small by lia. now apply (rl_own _ _ _ _ _ R).
  Qed.

  Lemma read_agree D G C o j : Rel D G C -> j < cur -> readable si st W m0 D o ->
    exists v, operand_value G o (s0 + j) = Ok v /\ operand_value C o j = Ok v /\ (d3 v = true -> wide td m0 o = true).
  Proof.
    intros R Hj Ho. destruct o as [v|r]; [exists v; repeat split; trivial|].
    destruct r as [sym three off nx md sz]. cbn [readable wide operand_value r_sym r_three r_off r_next r_mod r_size] in *.
    unfold get_value, get_i. cbn [r_sym r_three r_off r_next r_mod r_size].
    destruct sym as [s| | |].
    - destruct (sec_eqb s Stmp) eqn:Es.
      + apply sec_eqb_eq in Es. subst s. destruct Ho as [Hin [-> ->]]. rewrite !Nat.mul_0_r, !Nat.add_0_r.
        destruct (rl_tmp _ _ _ _ _ R) as [_ [_ Ht]]. destruct (Ht off Hin) as [v [HG [HC Hd]]].
        exists v. split; [now apply vget_some|]. split; [now apply vget_some | exact Hd].
      + destruct (global s) eqn:Eg.
        * destruct Ho as [Hlt [-> ->]]. rewrite !Nat.mul_0_r, !Nat.add_0_r. destruct (rl_glob _ _ _ _ _ R s Eg) as [-> ->].
          destruct (nth_error (m_sec m0 s) off) as [v|] eqn:Ev; [|apply nth_error_None in Ev; lia].
          exists v. split; [now apply vget_some|]. split; [now apply vget_some|]. intros Hd.
          apply existsb_exists. exists v. split; [now apply nth_error_In in Ev | exact Hd].
        * destruct Ho as [-> [-> [Hle Hcase]]].
          assert (Hcell : forall c, off <= c < off + cells three ->
            exists v, vget (m_sec G s) (c + ((s0 + j + nx) mod n) * w s) = Ok v /\
              vget (m_sec C s) (c + ((j + nx) mod n) * w s) = Ok v /\ d3 v = false).
          { intros c Hc. apply (cell_agree D); [exact R | exact Hj | lia | destruct Hcase as [[_ [H _]]|[_ [-> _]]]; lia|].
            destruct Hcase as [[H1 [H2 H3]]|[H1 [H2 H3]]]; [left | right]; repeat split; auto. }
          destruct three; cbn [cells] in *.
          -- destruct (Hcell off ltac:(lia)) as [x [X1 [X2 X3]]].
             destruct (Hcell (off + 1) ltac:(lia)) as [y [Y1 [Y2 Y3]]].
             destruct (Hcell (off + 2) ltac:(lia)) as [z [Z1 [Z2 Z3]]].
             unfold three. rewrite X1, X2. cbn [bind].
             replace (off + (s0 + j + nx) mod n * w s + 1) with (off + 1 + (s0 + j + nx) mod n * w s) by lia.
             replace (off + (s0 + j + nx) mod n * w s + 2) with (off + 2 + (s0 + j + nx) mod n * w s) by lia.
             replace (off + (j + nx) mod n * w s + 1) with (off + 1 + (j + nx) mod n * w s) by lia.
             replace (off + (j + nx) mod n * w s + 2) with (off + 2 + (j + nx) mod n * w s) by lia.
             rewrite Y1, Y2, Z1, Z2. unfold e_to_be. rewrite X3. cbn [bind]. rewrite Y3. cbn [bind]. rewrite Z3. cbn [bind e_from_vec].
             eexists. split; [reflexivity|]. split; [reflexivity|]. reflexivity.
          -- destruct (Hcell off ltac:(lia)) as [x [X1 [X2 X3]]]. exists x. split; [exact X1|]. split; [exact X2|].
             rewrite X3. intros HH. discriminate HH.
    - destruct Ho as [Hx [-> [-> [-> ->]]]]. rewrite !Nat.add_0_r, !Nat.add_0_l, !Nat.mod_small by lia.
      destruct (rl_xdiv _ _ _ _ _ R Hx (j * 3) ltac:(lia)) as [a0 [_ [A1 [A2 _]]]].
      destruct (rl_xdiv _ _ _ _ _ R Hx (j * 3 + 1) ltac:(lia)) as [a1 [_ [B1 [B2 _]]]].
      destruct (rl_xdiv _ _ _ _ _ R Hx (j * 3 + 2) ltac:(lia)) as [a2 [_ [D1 [D2 _]]]].
      unfold three_b. replace ((s0 + j) * 3 + 1) with (s0 * 3 + (j * 3 + 1)) by lia. replace ((s0 + j) * 3 + 2) with (s0 * 3 + (j * 3 + 2)) by lia.
      replace ((s0 + j) * 3) with (s0 * 3 + j * 3) by lia.
      rewrite (vget_some _ _ _ A1), (vget_some _ _ _ A2). cbn [bind]. rewrite (vget_some _ _ _ B1), (vget_some _ _ _ B2). cbn [bind].
      rewrite (vget_some _ _ _ D1), (vget_some _ _ _ D2). cbn [bind e_from_vec]. eexists. split; [reflexivity|]. split; reflexivity.
    - destruct Ho as [Hx [-> [-> [-> ->]]]]. rewrite !Nat.add_0_r, !Nat.add_0_l, !Nat.mod_small by lia.
      destruct (rl_xdiv _ _ _ _ _ R Hx (j * 3) ltac:(lia)) as [_ [a0 [_ [_ [A1 A2]]]]].
      destruct (rl_xdiv _ _ _ _ _ R Hx (j * 3 + 1) ltac:(lia)) as [_ [a1 [_ [_ [B1 B2]]]]].
      destruct (rl_xdiv _ _ _ _ _ R Hx (j * 3 + 2) ltac:(lia)) as [_ [a2 [_ [_ [D1 D2]]]]].
      unfold three_b. replace ((s0 + j) * 3 + 1) with (s0 * 3 + (j * 3 + 1)) by lia. replace ((s0 + j) * 3 + 2) with (s0 * 3 + (j * 3 + 2)) by lia.
      replace ((s0 + j) * 3) with (s0 * 3 + j * 3) by lia.
      rewrite (vget_some _ _ _ A1), (vget_some _ _ _ A2). cbn [bind]. rewrite (vget_some _ _ _ B1), (vget_some _ _ _ B2). cbn [bind].
      rewrite (vget_some _ _ _ D1), (vget_some _ _ _ D2). cbn [bind e_from_vec]. eexists. split; [reflexivity|]. split; reflexivity.
    - destruct (rl_zi _ _ _ _ _ R j) as [v [V1 [V2 V3]]]. exists v. split; [exact V2|]. split; [exact V1|]. rewrite V3. intros HH. discriminate HH.
  Qed.

  Lemma write_agree D G C r j v : Rel D G C -> j < cur -> writable si st W tused r ->
    (d3 v = true -> wide_dest td r = true) ->
    exists G' C', write_ref G r (s0 + j) v = Ok G' /\ write_ref C r j v = Ok C' /\
      Rel (defines r D) G' C' /\ frame (s0 + j) (s0 + j + 1) G G'.
  Proof.
    intros R Hj Hw Hd. destruct r as [sym th off nx md sz].
    unfold writable, wide_dest, defines in *. cbn [r_sym r_three r_off r_next r_mod r_size] in *.
    destruct sym as [s| | |]; try contradiction. destruct (sec_eqb s Stmp) eqn:Es.
    - apply sec_eqb_eq in Es. subst s. destruct Hw as [Hlt ->]. destruct (rl_tmp _ _ _ _ _ R) as [TG [TC HT]].
      unfold write_ref. cbn [r_sym]. unfold get_i. cbn [r_off r_next r_mod r_size]. rewrite !Nat.mul_0_r, !Nat.add_0_r.
      rewrite sec_eqb_refl, orb_true_r. cbv zeta.
      destruct (vset_spec (m_sec G Stmp) off v ltac:(lia)) as [lg [EG [LG NG]]].
      destruct (vset_spec (m_sec C Stmp) off v ltac:(lia)) as [lc [EC [LC NC]]].
      rewrite EG, EC. cbn [bind]. exists (m_set G Stmp lg), (m_set C Stmp lc). split; [reflexivity|]. split; [reflexivity|]. split.
      + assert (Hio : forall s, In s io -> m_sec (m_set G Stmp lg) s = m_sec G s /\ m_sec (m_set C Stmp lc) s = m_sec C s).
        { intros s Hs. destruct (step_secs st s Hs) as [Hne _]. rewrite !m_set_other by exact Hne. split; reflexivity. }
        assert (Hin : forall s, In s (step_in st) -> In s io) by (intros s Hs; apply in_or_app; now left).
        assert (Hout : forall s, In s (step_out st) -> In s io) by (intros s Hs; apply in_or_app; now right).
        constructor.
        * intros s Hs. rewrite !m_set_other by (intros ->; discriminate Hs). exact (rl_glob _ _ _ _ _ R s Hs).
        * intros s Hs. destruct (Hio s Hs) as [-> ->]. exact (rl_len _ _ _ _ _ R s Hs).
        * intros s Hs. destruct (Hio s Hs) as [-> _]. exact (rl_base _ _ _ _ _ R s Hs).
        * intros s r c Hs. destruct (Hio s (Hin s Hs)) as [-> ->]. exact (rl_clean _ _ _ _ _ R s r c Hs).
        * intros s r c Hs. destruct (Hio s Hs) as [-> ->]. exact (rl_own _ _ _ _ _ R s r c Hs).
        * intros s r c Hs. destruct (Hio s (Hout s Hs)) as [_ ->]. exact (rl_zero _ _ _ _ _ R s r c Hs).
        * exact (rl_xdiv _ _ _ _ _ R).
        * exact (rl_zi _ _ _ _ _ R).
        * rewrite !m_set_same. split; [lia|]. split; [lia|]. intros id Hid. rewrite NG, NC.
          destruct (Nat.eqb_spec id off) as [->|Hne]; [exists v; repeat split; exact Hd|].
          destruct Hid as [Heq|Hid]; [exfalso; apply Hne; now symmetry | exact (HT id Hid)].
      + split; [|split].
        * intros s Hs _. apply m_set_other. exact Hs.
        * repeat split.
        * intros s Hs. destruct (step_secs st s (in_or_app _ _ s (or_intror Hs))) as [Hne _]. rewrite m_set_other by exact Hne.
          split; reflexivity.
    - destruct Hw as [Hs [-> [-> [-> [Hle HW]]]]].
      assert (HsIo : In s io) by (apply in_or_app; now right).
      destruct (step_secs st s HsIo) as [Hne Hng]. destruct (rl_len _ _ _ _ _ R s HsIo) as [LG LC].
      assert (Hlen : length (wcells v) <= cells th).
      { rewrite wcells_len. destruct (d3 v); [rewrite Hd by reflexivity; reflexivity | destruct th; cbn [cells]; lia]. }
      set (len := length (wcells v)) in *.
      assert (Hlen0 : 0 < len) by (unfold len; rewrite wcells_len; destruct (d3 v); cbn [cells]; lia).
      assert (HiG : get_i (mkR (RSec s) th off 0 n (w s)) (s0 + j) = (s0 + j) * w s + off).
      { unfold get_i. cbn [r_off r_next r_mod r_size]. rewrite Nat.add_0_r, Nat.mod_small by lia. lia. }
      assert (HiC : get_i (mkR (RSec s) th off 0 n (w s)) j = j * w s + off).
      { unfold get_i. cbn [r_off r_next r_mod r_size]. rewrite Nat.add_0_r, Nat.mod_small by lia. lia. }
      assert (BG : (s0 + j) * w s + off + len <= length (m_sec G s)).
      { pose proof (row_bound (w s) (s0 + j) (off + len - 1) n ltac:(lia) ltac:(lia)). lia. }
      assert (BC : j * w s + off + len <= length (m_sec C s)).
      { pose proof (row_bound (w s) j (off + len - 1) (cur + next) ltac:(lia) ltac:(lia)). lia. }
      destruct (write_cells G (mkR (RSec s) th off 0 n (w s)) (s0 + j) v s eq_refl Hne ltac:(rewrite HiG; exact BG)) as [lg [EG [Lg NG]]].
      destruct (write_cells C (mkR (RSec s) th off 0 n (w s)) j v s eq_refl Hne ltac:(rewrite HiC; exact BC)) as [lc [EC [Lc NC]]].
      rewrite HiG in NG. rewrite HiC in NC. fold len in NG, NC.
      exists (m_set G s lg), (m_set C s lc). split; [exact EG|]. split; [exact EC|].
      (* a cell of the section, in terms of its row and column *)
      assert (QG : forall r c, c < w s -> nth_error lg (r * w s + c) =
                     if (r =? s0 + j) && ((off <=? c) && (c <? off + len)) then nth_error (wcells v) (c - off) else nth_error (m_sec G s) (r * w s + c)).
      { intros r c Hc. rewrite NG, (row_idx_b (w s) r c (s0 + j) off len Hc) by lia.
        destruct ((r =? s0 + j) && _) eqn:Eb; [|reflexivity]. apply andb_prop in Eb. destruct Eb as [Eb _]. apply Nat.eqb_eq in Eb. subst r. f_equal. lia. }
      assert (QC : forall r c, c < w s -> nth_error lc (r * w s + c) =
                     if (r =? j) && ((off <=? c) && (c <? off + len)) then nth_error (wcells v) (c - off) else nth_error (m_sec C s) (r * w s + c)).
      { intros r c Hc. rewrite NC, (row_idx_b (w s) r c j off len Hc) by lia.
        destruct ((r =? j) && _) eqn:Eb; [|reflexivity]. apply andb_prop in Eb. destruct Eb as [Eb _]. apply Nat.eqb_eq in Eb. subst r. f_equal. lia. }
      assert (Hcl : forall c, W s c = false -> (off <=? c) && (c <? off + len) = false).
      { intros c Hc. destruct (Nat.leb_spec off c); destruct (Nat.ltb_spec c (off + len)); cbn [andb]; try reflexivity.
        rewrite (HW c ltac:(lia)) in Hc. discriminate Hc. }
      split.
      + constructor.
        * intros s' Hs'. rewrite !m_set_other by (intros ->; rewrite Hs' in Hng; discriminate Hng). exact (rl_glob _ _ _ _ _ R s' Hs').
        * intros s' Hs'. destruct (sec_dec s' s) as [->|Hd']; [rewrite !m_set_same; lia | rewrite !m_set_other by exact Hd'; exact (rl_len _ _ _ _ _ R s' Hs')].
        * intros s' Hs'. destruct (sec_dec s' s) as [->|Hd']; [rewrite !m_set_same | rewrite !m_set_other by exact Hd'; exact (rl_base _ _ _ _ _ R s' Hs')].
          apply Forall_forall. intros x Hx. apply In_nth_error in Hx. destruct Hx as [k Hk]. rewrite NG in Hk.
          destruct ((_ <=? k) && _).
          -- pose proof (wcells_base v) as Hb. rewrite Forall_forall in Hb. apply Hb. now apply nth_error_In in Hk.
          -- exact (base_at _ _ _ _ (rl_base _ _ _ _ _ R s Hs') Hk).
        * intros s' r c Hs' Hr Hc Hwc. destruct (sec_dec s' s) as [->|Hd'].
          -- rewrite !m_set_same. rewrite QG, QC by exact Hc. rewrite (Hcl c Hwc), !andb_false_r. exact (rl_clean _ _ _ _ _ R s r c Hs' Hr Hc Hwc).
          -- rewrite !m_set_other by exact Hd'. exact (rl_clean _ _ _ _ _ R s' r c Hs' Hr Hc Hwc).
        * intros s' r c Hs' Hr Hc Hwc. destruct (sec_dec s' s) as [->|Hd'].
          -- rewrite !m_set_same. rewrite QG, QC by exact Hc.
             replace (s0 + r =? s0 + j) with (r =? j).
             2: { destruct (Nat.eqb_spec r j); destruct (Nat.eqb_spec (s0 + r) (s0 + j)); try reflexivity; exfalso; lia. }
             destruct ((r =? j) && _); [reflexivity|]. exact (rl_own _ _ _ _ _ R s r c Hs' Hr Hc Hwc).
          -- rewrite !m_set_other by exact Hd'. exact (rl_own _ _ _ _ _ R s' r c Hs' Hr Hc Hwc).
        * intros s' r c Hs' Hni Hr Hc Hwc. destruct (sec_dec s' s) as [->|Hd'].
          -- rewrite !m_set_same. rewrite QC by exact Hc. rewrite (Hcl c Hwc), !andb_false_r. exact (rl_zero _ _ _ _ _ R s r c Hs' Hni Hr Hc Hwc).
          -- rewrite !m_set_other by exact Hd'. exact (rl_zero _ _ _ _ _ R s' r c Hs' Hni Hr Hc Hwc).
        * exact (rl_xdiv _ _ _ _ _ R).
        * exact (rl_zi _ _ _ _ _ R).
        * rewrite !m_set_other by (intros E; apply Hne; now symmetry). exact (rl_tmp _ _ _ _ _ R).
      + split; [|split].
        * intros s' H1 H2. apply m_set_other. intros ->. contradiction.
        * repeat split.
        * intros s' Hs'. destruct (sec_dec s' s) as [->|Hd']; [|rewrite m_set_other by exact Hd'; split; reflexivity].
          rewrite m_set_same. split; [exact Lg|]. intros r c Hc Hr. rewrite QG by exact Hc.
          destruct Hr as [Hr|[Hr|Hr]].
          -- replace (r =? s0 + j) with false by (symmetry; apply Nat.eqb_neq; lia). reflexivity.
          -- replace (r =? s0 + j) with false by (symmetry; apply Nat.eqb_neq; lia). reflexivity.
          -- rewrite (Hcl c Hr), andb_false_r. reflexivity.
  Qed.

  Lemma block_step m o r args rest i : op_args o = Some args ->
    block_eval m [] (o :: IWrite r :: rest) i =
    do vs <- mapM (fun a => operand_value m a i) args;
    do m' <- write_ref m r i (match o, vs with
                              | IAdd _ _, [x; y] => e_add x y
                              | ISub _ _, [x; y] => e_sub x y
                              | IMul _ _, [x; y] => e_mul x y
                              | _, [x] => x
                              | _, _ => e_ZERO
                              end);
    block_eval m' [] rest i.
  Proof.
    intros H. destruct o as [a b|a b|a b|a|r'|a|]; cbn [op_args] in H; try discriminate H; injection H as <-;
      cbn [block_eval mapM]; destruct (operand_value m a i); cbn [bind]; try reflexivity;
      destruct (operand_value m b i); cbn [bind]; reflexivity.
  Qed.

  Fixpoint row_end (D : list nat) (l : list iop) : list nat :=
    match l with
    | o :: IWrite r :: rest => row_end (defines r D) rest
    | _ => D
    end.

  Lemma row_agree l : forall D G C j, Rel D G C -> j < cur -> row_local si st W td tused m0 D l ->
    exists G' C', block_eval G [] l (s0 + j) = Ok (e_ZERO, G') /\ block_eval C [] l j = Ok (e_ZERO, C') /\
      Rel (row_end D l) G' C' /\ frame (s0 + j) (s0 + j + 1) G G'.
  Proof.
    assert (HH : forall k l, length l <= k -> forall D G C j, Rel D G C -> j < cur -> row_local si st W td tused m0 D l ->
      exists G' C', block_eval G [] l (s0 + j) = Ok (e_ZERO, G') /\ block_eval C [] l j = Ok (e_ZERO, C') /\
        Rel (row_end D l) G' C' /\ frame (s0 + j) (s0 + j + 1) G G').
    { induction k as [|k IH]; intros l' Hl D G C j R Hj HL.
      - destruct l'; [|cbn [length] in Hl; lia]. exists G, C. cbn [block_eval row_end]. repeat split; try apply frame_id; try apply R; trivial.
      - destruct l' as [|o [|[a b|a b|a b|a|r|a|] rest]]; try (cbn [row_local] in HL; contradiction).
        + exists G, C. cbn [block_eval row_end]. split; [reflexivity|]. split; [reflexivity|]. split; [exact R | apply frame_id].
        + cbn [row_local] in HL. destruct (op_args o) as [args|] eqn:Ea; [|contradiction].
          destruct HL as [Hargs [Hw [Hwide Hrest]]].
          assert (HV : exists vs, mapM (fun a => operand_value G a (s0 + j)) args = Ok vs /\ mapM (fun a => operand_value C a j) args = Ok vs /\
                    ((Forall (fun a => wide td m0 a = false) args) -> Forall (fun v => d3 v = false) vs)).
          { clear -R Hj Hargs Hn Hcur. induction Hargs as [|a args Ha _ IHa].
            - exists []. repeat split. intros _. constructor.
            - destruct (read_agree D G C a j R Hj Ha) as [v [V1 [V2 V3]]]. destruct IHa as [vs [S1 [S2 S3]]].
              exists (v :: vs). cbn [mapM]. rewrite V1, V2. cbn [bind]. rewrite S1, S2. cbn [bind]. split; [reflexivity|]. split; [reflexivity|].
              intros HF. inversion HF as [|x y H1 H2]; subst. constructor; [|now apply S3].
              destruct (d3 v); [rewrite V3 in H1 by reflexivity; discriminate H1 | reflexivity]. }
          destruct HV as [vs [V1 [V2 V3]]].
          rewrite (block_step G o r args rest _ Ea), (block_step C o r args rest _ Ea), V1, V2. cbn [bind].
          set (v := match o, vs with IAdd _ _, [x; y] => e_add x y | ISub _ _, [x; y] => e_sub x y | IMul _ _, [x; y] => e_mul x y | _, [x] => x | _, _ => e_ZERO end).
          assert (Hd : d3 v = true -> wide_dest td r = true).
          { intros Hv. destruct (wide_dest td r) eqn:Er; [reflexivity|]. exfalso. specialize (V3 (Hwide eq_refl)).
            assert (Hb : d3 v = false); [|rewrite Hb in Hv; discriminate Hv].
            assert (Hsh : forall i x, nth_error vs i = Some x -> d3 x = false).
            { intros i x Hx. rewrite Forall_forall in V3. apply V3. now apply nth_error_In in Hx. }
            unfold v. clear v Hv. destruct o; destruct vs as [|x [|y [|z t]]]; try reflexivity; try (exact (Hsh 0 _ eq_refl));
              rewrite ?d3_add, ?d3_sub, ?d3_mul, (Hsh 0 x eq_refl), (Hsh 1 y eq_refl); reflexivity. }
          destruct (write_agree D G C r j v R Hj Hw Hd) as [G1 [C1 [E1 [E2 [R1 F1]]]]]. rewrite E1, E2. cbn [bind].
          destruct (IH rest ltac:(cbn [length] in Hl; lia) _ G1 C1 j R1 Hj Hrest) as [G2 [C2 [E3 [E4 [R2 F2]]]]].
          exists G2, C2. split; [exact E3|]. split; [exact E4|]. split; [exact R2 | exact (frame_same _ _ _ _ _ F1 F2)]. }
    intros D G C j. apply (HH (length l)). lia.
  Qed.
End Chunk.

Section Rows.
  Variables (si : sinfo) (st : pstep).
  Variables (W : sec -> nat -> bool) (td : nat -> bool) (tused : nat).
  Variable m0 : mem.
  Notation n := (par_n si st).
  Notation next := (par_next si st).
  Notation w := (sec_width si).
  Notation io := (step_in st ++ step_out st).
  Variable blk : list iop.
  Definition rowf (m : mem) (i : nat) : res mem := rmap snd (block_eval m [] blk i).
  Hypothesis Hn : n <> 0.
  Hypothesis Hlocal : row_local si st W td tused m0 [] blk.
  Notation Rel := (rel si st W td tused m0).
  Notation Frame := (frame si st W).

  Lemma rel_forget s0 cur D G C : Rel s0 cur D G C -> Rel s0 cur [] G C.
  Proof.
    intros R. destruct R as [r1 r2 r3 r4 r5 r6 r7 r8 r9]. constructor; try assumption.
    destruct r9 as [a [b _]]. split; [exact a|]. split; [exact b|]. intros id [].
  Qed.

  Lemma rows_agree s0 cur : s0 + cur <= n -> forall k j G C, Rel s0 cur [] G C -> j + k <= cur ->
    exists G' C', foldM rowf (seq (s0 + j) k) G = Ok G' /\ foldM rowf (seq j k) C = Ok C' /\
      Rel s0 cur [] G' C' /\ Frame (s0 + j) (s0 + j + k) G G'.
  Proof.
    intros Hc. induction k as [|k IH]; intros j G C R Hj.
    - exists G, C. cbn [seq foldM]. split; [reflexivity|]. split; [reflexivity|]. split; [exact R | apply frame_id].
    - destruct (row_agree si st W td tused m0 Hn s0 cur Hc blk [] G C j R ltac:(lia) Hlocal) as [G1 [C1 [E1 [E2 [R1 F1]]]]].
      destruct (IH (S j) G1 C1 (rel_forget _ _ _ _ _ R1) ltac:(lia)) as [G2 [C2 [E3 [E4 [R2 F2]]]]].
      exists G2, C2. cbn [seq foldM]. unfold rowf at 1 3. rewrite E1, E2. unfold rmap. cbn [bind snd].
      rewrite Nat.add_succ_r in E3. split; [exact E3|]. split; [exact E4|]. split; [exact R2|].
      apply (frame_comp si st W _ (s0 + j + 1) _ _ G1); [lia | exact F1|].
      replace (s0 + S j) with (s0 + j + 1) in F2 by lia. replace (s0 + j + 1 + k) with (s0 + j + S k) in F2 by lia. exact F2.
  Qed.
End Rows.

(* ---------- building and writing back a chunk ---------- *)
Lemma skipn_nth {A} (l : list A) : forall a x, nth_error l a = Some x -> skipn a l = x :: skipn (S a) l.
Proof.
  induction l as [|y l IH]; intros a x H; [destruct a; discriminate H|].
  destruct a as [|a]; [injection H as ->; reflexivity|]. exact (IH a x H).
Qed.
Lemma firstn_nth {A} (l : list A) : forall a x, nth_error l a = Some x -> firstn (S a) l = firstn a l ++ [x].
Proof.
  induction l as [|y l IH]; intros a x H; [destruct a; discriminate H|].
  destruct a as [|a]; [injection H as ->; reflexivity|]. change (y :: firstn (S a) l = y :: (firstn a l ++ [x])). now rewrite (IH a x H).
Qed.
Lemma mapM_vget_seq {A} (l : list A) a k : a + k <= length l ->
  mapM (fun j => vget l (a + j)) (seq 0 k) = Ok (firstn k (skipn a l)).
Proof.
  revert a. induction k as [|k IH]; intros a H; [reflexivity|].
  cbn [seq mapM]. rewrite Nat.add_0_r. destruct (nth_error l a) as [x|] eqn:E; [|apply nth_error_None in E; lia].
  rewrite (vget_some _ _ _ E). cbn [bind]. rewrite <- seq_shift.
  assert (HM : mapM (fun j => vget l (a + j)) (map S (seq 0 k)) = mapM (fun j => vget l (S a + j)) (seq 0 k)).
  { clear. generalize (seq 0 k). intros q. induction q as [|y q IHq]; [reflexivity|]. cbn [map mapM].
    rewrite IHq. replace (a + S y) with (S a + y) by lia. reflexivity. }
  rewrite HM, IH by lia. cbn [bind]. f_equal.
  rewrite (skipn_nth l a x E). reflexivity.
Qed.
Lemma nth_window {A} (l : list A) a k i : i < k -> nth_error (firstn k (skipn a l)) i = nth_error l (a + i).
Proof.
  intros H. revert l. revert k i H. induction a as [|a IH]; intros k i H l.
  - cbn [skipn Nat.add]. revert l i H. induction k as [|k IHk]; intros l i H; [lia|].
    destruct l as [|x l]; [destruct i; reflexivity|]. destruct i as [|i]; [reflexivity|]. cbn [firstn nth_error]. apply IHk. lia.
  - destruct l as [|x l]; [cbn [skipn]; rewrite firstn_nil; destruct i; reflexivity|]. cbn [skipn Nat.add nth_error]. now apply IH.
Qed.
Lemma window_len {A} (l : list A) a k : a + k <= length l -> length (firstn k (skipn a l)) = k.
Proof. intros H. rewrite firstn_length, skipn_length. lia. Qed.

Lemma copy_rows_spec {A} (l : list A) w n i cur next : n <> 0 -> length l = n * w -> i + cur <= n -> next <= n ->
  i + cur = n \/ i + cur + next <= n ->
  exists l', copy_rows l w n i cur next = Ok l' /\ length l' = (cur + next) * w /\
    forall r c, r < cur + next -> c < w -> nth_error l' (r * w + c) = nth_error l (((i + r) mod n) * w + c).
Proof.
  intros Hn Hl Hi Hnx Hend. unfold copy_rows.
  set (e := (i + cur) mod n).
  assert (He : e + next <= n /\ forall k, k < next -> (i + (cur + k)) mod n = e + k).
  { unfold e. destruct Hend as [Hend|Hend].
    - rewrite Hend, Nat.mod_same by exact Hn. split; [lia|]. intros k Hk. rewrite Nat.add_assoc, Hend.
      replace (n + k) with (k + 1 * n) by lia. rewrite Nat.mod_add by exact Hn. rewrite Nat.mod_small by lia. reflexivity.
    - destruct (Nat.eq_dec next 0) as [Hz|Hz].
      + split; [|intros k Hk; lia]. pose proof (Nat.mod_upper_bound (i + cur) n Hn). lia.
      + rewrite (Nat.mod_small (i + cur)) by lia. split; [lia|]. intros k Hk. rewrite Nat.mod_small by lia. lia. }
  destruct He as [He1 He2]. clearbody e.
  assert (B1 : i * w + cur * w <= length l).
  { rewrite Hl, <- Nat.mul_add_distr_r. now apply Nat.mul_le_mono_r. }
  assert (B2 : e * w + next * w <= length l).
  { rewrite Hl, <- Nat.mul_add_distr_r. now apply Nat.mul_le_mono_r. }
  rewrite (mapM_vget_seq l _ _ B1). cbn [bind]. rewrite (mapM_vget_seq l _ _ B2). cbn [bind].
  eexists. split; [reflexivity|]. split; [rewrite app_length, !window_len by assumption; lia|].
  intros r c Hr Hc. destruct (lt_dec r cur) as [L|L].
  - pose proof (row_bound w r c cur Hc L). rewrite nth_error_app1 by (rewrite window_len by exact B1; assumption).
    rewrite nth_window by assumption. rewrite Nat.mod_small by lia. f_equal. lia.
  - assert (Hrk : r = cur + (r - cur)) by lia. set (k := r - cur) in *. clearbody k. subst r. rewrite He2 by lia.
    assert (Hk : k * w + c < next * w) by (apply row_bound; [exact Hc | lia]).
    rewrite Nat.mul_add_distr_r, <- Nat.add_assoc, nth_error_app2 by (rewrite window_len by exact B1; apply Nat.le_add_r).
    rewrite window_len by exact B1. rewrite Nat.add_comm, Nat.add_sub.
    rewrite nth_window by exact Hk. f_equal. rewrite Nat.mul_add_distr_r. lia.
Qed.

Lemma foldM_sets (f : sec -> res (list F3G)) L : forall c, (forall s, In s L -> exists l, f s = Ok l) ->
  exists c', foldM (fun c s => do l <- f s; Ok (m_set c s l)) L c = Ok c' /\
    (forall s, In s L -> f s = Ok (m_sec c' s)) /\ (forall s, ~ In s L -> m_sec c' s = m_sec c s) /\
    m_xdiv c' = m_xdiv c /\ m_xdivw c' = m_xdivw c /\ m_zi c' = m_zi c.
Proof.
  induction L as [|a L IH]; intros c H.
  - exists c. cbn [foldM]. split; [reflexivity|]. split; [intros s []|]. repeat split.
  - destruct (H a (or_introl eq_refl)) as [l Hl].
    destruct (IH (m_set c a l) (fun s Hs => H s (or_intror Hs))) as [c' [E [P1 [P2 [P3 [P4 P5]]]]]].
    exists c'. cbn [foldM]. rewrite Hl. cbn [bind]. split; [exact E|]. split; [|split; [|repeat split; assumption]].
    + intros s Hs. destruct (in_dec sec_dec s L) as [Hin|Hni]; [now apply P1|].
      destruct Hs as [->|Hs]; [|contradiction]. rewrite (P2 s Hni), m_set_same. exact Hl.
    + intros s Hs. rewrite P2 by (intros HH; apply Hs; now right). apply m_set_other. intros ->. apply Hs. now left.
Qed.

Definition fill (k : nat) (l : list F3G) : list F3G := match l with [] => repeat e_ZERO k | _ => l end.
Lemma fill_fill k l : fill k (fill k l) = fill k l.
Proof. destruct l as [|x l]; [|reflexivity]. destruct k; reflexivity. Qed.
Lemma fold_fills (k : sec -> nat) L : forall c,
  let c' := fold_left (fun c s => match m_sec c s with [] => m_set c s (repeat e_ZERO (k s)) | _ => c end) L c in
    (forall s, In s L -> m_sec c' s = fill (k s) (m_sec c s)) /\ (forall s, ~ In s L -> m_sec c' s = m_sec c s) /\
    m_xdiv c' = m_xdiv c /\ m_xdivw c' = m_xdivw c /\ m_zi c' = m_zi c.
Proof.
  induction L as [|a L IH]; intros c.
  - cbv zeta. cbn [fold_left]. split; [intros s []|]. repeat split.
  - cbv zeta. cbn [fold_left].
    set (c1 := match m_sec c a with [] => m_set c a (repeat e_ZERO (k a)) | _ => c end).
    assert (H1 : m_sec c1 a = fill (k a) (m_sec c a) /\ (forall s, s <> a -> m_sec c1 s = m_sec c s) /\
                 m_xdiv c1 = m_xdiv c /\ m_xdivw c1 = m_xdivw c /\ m_zi c1 = m_zi c).
    { unfold c1. destruct (m_sec c a) as [|x l] eqn:E.
      - rewrite m_set_same. split; [reflexivity|]. split; [intros s Hs; now apply m_set_other|]. repeat split.
      - rewrite E. repeat split. }
    clearbody c1. destruct H1 as [A1 [A2 [A3 [A4 A5]]]]. destruct (IH c1) as [P1 [P2 [P3 [P4 P5]]]].
    split; [|split; [|rewrite P3, P4, P5, A3, A4, A5; repeat split]].
    + intros s Hs. destruct (in_dec sec_dec s L) as [Hin|Hni].
      * rewrite (P1 s Hin). destruct (sec_dec s a) as [->|Hd]; [rewrite A1; apply fill_fill | rewrite A2 by exact Hd; reflexivity].
      * destruct Hs as [->|Hs]; [|contradiction]. rewrite P2 by exact Hni. exact A1.
    + intros s Hs. rewrite P2 by (intros HH; apply Hs; now right). apply A2. intros ->. apply Hs. now left.
Qed.

Lemma copy_back {A} (tmp : list A) b : forall k out, k <= length tmp -> b + k <= length out ->
  exists out', foldM (fun out j => do v <- vget tmp j; vset out (b + j) v) (seq 0 k) out = Ok out' /\ length out' = length out /\
    forall x, nth_error out' x = if (b <=? x) && (x <? b + k) then nth_error tmp (x - b) else nth_error out x.
Proof.
  induction k as [|k IH]; intros out Hk Hb.
  - exists out. split; [reflexivity|]. split; [reflexivity|]. intros x.
    destruct (Nat.leb_spec b x); destruct (Nat.ltb_spec x (b + 0)); cbn [andb]; try reflexivity. lia.
  - destruct (IH out ltac:(lia) ltac:(lia)) as [o1 [E1 [L1 N1]]]. rewrite seq_S, Nat.add_0_l.
    assert (HA : forall l1 l2 (f : list A -> nat -> res (list A)) o, foldM f (l1 ++ l2) o = do o' <- foldM f l1 o; foldM f l2 o').
    { clear. intros l1 l2 f. induction l1 as [|y l1 IHl]; intros o; [reflexivity|]. cbn [app foldM]. destruct (f o y); cbn [bind]; try reflexivity. apply IHl. }
    rewrite HA, E1. cbn [bind foldM]. destruct (nth_error tmp k) as [v|] eqn:Ev; [|apply nth_error_None in Ev; lia].
    rewrite (vget_some _ _ _ Ev). cbn [bind]. destruct (vset_spec o1 (b + k) v ltac:(lia)) as [o2 [E2 [L2 N2]]].
    rewrite E2. cbn [bind]. exists o2. split; [reflexivity|]. split; [lia|]. intros x. rewrite N2, N1.
    destruct (Nat.eqb_spec x (b + k)) as [->|Hne].
    + replace (b + k - b) with k by lia. rewrite Ev.
      destruct (Nat.leb_spec b (b + k)); destruct (Nat.ltb_spec (b + k) (b + S k)); cbn [andb]; try reflexivity; lia.
    + destruct (Nat.leb_spec b x); destruct (Nat.ltb_spec x (b + k)); destruct (Nat.ltb_spec x (b + S k)); cbn [andb]; try reflexivity; lia.
Qed.

(* ---------- all chunks ---------- *)
Lemma combine_app_len {A B} (a : list A) (b : list B) a' b' : length a = length b -> combine (a ++ a') (b ++ b') = combine a b ++ combine a' b'.
Proof.
  revert b. induction a as [|x a IH]; intros [|y b] H; try discriminate H; [reflexivity|].
  cbn [app combine]. rewrite IH by (now injection H). reflexivity.
Qed.

Section All.
  Variables (si : sinfo) (st : pstep).
  Variables (W : sec -> nat -> bool) (td : nat -> bool).
  Variables (m0 : mem) (seg : segment) (blk : list iop) (per : nat).
  Notation tused := (sg_tmp seg).
  Notation n := (par_n si st).
  Notation next := (par_next si st).
  Notation w := (sec_width si).
  Notation io := (step_in st ++ step_out st).
  Notation Rel := (rel si st W td tused m0).
  Notation Frame := (frame si st W).
  Notation ext := (si_nbits_ext si - si_nbits si).
  Hypothesis Hblk : compile_code si (sg_first seg) (step_dom st) false = Ok blk.
  Hypothesis Hlocal : row_local si st W td tused m0 [] blk.
  Hypothesis Hmem : mem_ok si st m0.
  Hypothesis Hzero : out_zero si st W m0.
  Hypothesis Hext : ext <= 32.
  Hypothesis Hper : per <> 0.
  Hypothesis Hn : n <> 0.
  Hypothesis Hnext : next <= n.
  Hypothesis Hlast : n <= per \/ next <= (n - 1) mod per + 1.

  Definition m1 : mem := m_set m0 Stmp (repeat e_ZERO tused).
  Definition width_of (k : nat) : nat := Nat.min per (n - k * per).

  Lemma chunk_end k : k * per < n -> k * per + width_of k = n \/ k * per + width_of k + next <= n.
  Proof.
    intros Hk. unfold width_of. destruct (le_dec (n - k * per) per) as [L|L]; [rewrite Nat.min_r by exact L; left; lia|].
    rewrite Nat.min_l by lia. right. destruct Hlast as [H|H]; [lia|].
    pose proof (Nat.div_mod (n - 1) per Hper) as Hd. set (q := (n - 1) / per) in *. set (z := (n - 1) mod per) in *.
    assert (Hz : z < per) by (now apply Nat.mod_upper_bound).
    assert (Hkq : k < q).
    { destruct (le_lt_dec q k) as [Hq|Hq]; [|exact Hq]. pose proof (Nat.mul_le_mono_r q k per Hq). rewrite Nat.mul_comm in Hd. lia. }
    pose proof (Nat.mul_le_mono_r (S k) q per Hkq) as Hm. rewrite Nat.mul_succ_l in Hm. rewrite Nat.mul_comm in Hd. lia.
  Qed.

  Definition in_out (s : sec) : bool := if in_dec sec_dec s (step_in st) then true else false.

  (* a chunk as it is when its block starts running *)
  Lemma chunk_start k G : k * per < n -> Frame 0 (k * per) m1 G ->
    (forall s, In s io -> Forall (fun v => d3 v = false) (m_sec G s)) -> length (m_sec G Stmp) = tused ->
    exists c C, make_chunk si st m0 per (k * per) = Ok c /\
      (forall m', run_chunk si st seg per (k, c) = Ok m' <-> foldM (rowf blk) (seq 0 (width_of k)) C = Ok m') /\
      Rel (k * per) (width_of k) [] G C.
  Proof.
    intros Hk [F1 [[F2 [F3 F4]] F5]] HB HT. set (s0 := k * per) in *. set (cur := width_of k).
    assert (Hc : s0 + cur <= n) by (unfold cur, width_of; fold s0; lia).
    assert (Hcn : 0 < cur) by (unfold cur, width_of; fold s0; lia).
    assert (Hend : s0 + cur = n \/ s0 + cur + next <= n) by (apply chunk_end; exact Hk).
    destruct Hmem as [M1 [M2 M3]].
    assert (Hcopy : forall s, In s (step_in st) -> exists l', copy_rows (m_sec m0 s) (w s) n s0 cur next = Ok l').
    { intros s Hs. destruct (M1 s (in_or_app _ _ s (or_introl Hs))) as [L _].
      destruct (copy_rows_spec (m_sec m0 s) (w s) n s0 cur next Hn L Hc Hnext Hend) as [l' [E _]]. now exists l'. }
    destruct (foldM_sets _ _ (empty_ctx m0) Hcopy) as [c1 [E1 [P1 [P2 [P3 [P4 P5]]]]]].
    (* the copied sections *)
    assert (Hin : forall s, In s (step_in st) -> length (m_sec c1 s) = (cur + next) * w s /\
              forall r c, r < cur + next -> c < w s -> nth_error (m_sec c1 s) (r * w s + c) = nth_error (m_sec m0 s) (((s0 + r) mod n) * w s + c)).
    { intros s Hs. destruct (M1 s (in_or_app _ _ s (or_introl Hs))) as [L _].
      destruct (copy_rows_spec (m_sec m0 s) (w s) n s0 cur next Hn L Hc Hnext Hend) as [l' [E [Ll N]]].
      rewrite (P1 s Hs) in E. injection E as E. rewrite E. split; [exact Ll | exact N]. }
    assert (Hx : exists c2, make_chunk si st m0 per s0 = Ok c2 /\ m_sec c2 = m_sec c1 /\
              (step_xdiv st = true -> forall q, q < cur * 3 ->
                 nth_error (m_xdiv c2) q = nth_error (m_xdiv m0) (s0 * 3 + q) /\
                 nth_error (m_xdivw c2) q = nth_error (m_xdivw m0) (s0 * 3 + q))).
    { unfold make_chunk. change (Nat.min per (n - s0)) with cur. rewrite E1. cbn [bind]. destruct (step_xdiv st) eqn:Ex.
      - destruct (M2 eq_refl) as [X1 X2].
        destruct (copy_rows_spec (m_xdiv m0) 3 n s0 cur next Hn X1 Hc Hnext Hend) as [la [Ea [La Na]]].
        destruct (copy_rows_spec (m_xdivw m0) 3 n s0 cur next Hn X2 Hc Hnext Hend) as [lb [Eb [Lb Nb]]].
        rewrite Ea. cbn [bind]. rewrite Eb. cbn [bind]. eexists. split; [reflexivity|]. split; [reflexivity|]. intros _ q Hq.
        cbn [m_xdiv m_xdivw]. destruct (row_split 3 q cur Hq) as [r [c [-> [Hr Hcc]]]].
        rewrite Na, Nb by lia. rewrite !Nat.mod_small by lia. split; f_equal; lia.
      - exists c1. split; [reflexivity|]. split; [reflexivity|]. intros HH. discriminate HH. }
    destruct Hx as [c2 [E2 [S2 X2]]].
    set (ca := mkM (m_sec c2) (m_xdiv c2) (m_xdivw c2) (build_Zh_Inv (si_nbits si) ext s0)).
    set (cb := fold_left (fun c s => match m_sec c s with [] => m_set c s (repeat e_ZERO (w s * (cur + next))) | _ => c end) (step_out st) ca).
    destruct (fold_fills (fun s => w s * (cur + next)) (step_out st) ca) as [Q1 [Q2 [Q3 [Q4 Q5]]]]. fold cb in Q1, Q2, Q3, Q4, Q5.
    exists c2, (m_set cb Stmp (repeat e_ZERO tused)). split; [exact E2|]. split.
    { intros m'. unfold run_chunk. fold s0. fold ca. change (Nat.min per (n - s0)) with cur. fold cb.
      unfold calculate_exps. rewrite Hblk. cbn [bind]. reflexivity. }
    assert (Hio : forall s, In s io -> m_sec (m_set cb Stmp (repeat e_ZERO tused)) s = m_sec cb s).
    { intros s Hs. apply m_set_other. exact (proj1 (step_secs st s Hs)). }
    assert (HinIo : forall s, In s (step_in st) -> In s io) by (intros s Hs; apply in_or_app; now left).
    assert (HoutIo : forall s, In s (step_out st) -> In s io) by (intros s Hs; apply in_or_app; now right).
    (* sections of the filled chunk *)
    assert (Hcb_in : forall s, In s (step_in st) -> length (m_sec cb s) = (cur + next) * w s /\
              forall r c, r < cur + next -> c < w s -> nth_error (m_sec cb s) (r * w s + c) = nth_error (m_sec m0 s) (((s0 + r) mod n) * w s + c)).
    { intros s Hs. destruct (Hin s Hs) as [L N]. destruct (in_dec sec_dec s (step_out st)) as [Ho|Ho].
      - rewrite (Q1 s Ho). unfold ca. cbn [m_sec]. rewrite S2. unfold fill. destruct (m_sec c1 s) as [|x l] eqn:El; [|split; [exact L | exact N]].
        cbn [length] in L. split; [rewrite repeat_length; lia|]. intros r c Hr Hcc. exfalso.
        pose proof (row_bound (w s) r c (cur + next) Hcc Hr). lia.
      - rewrite (Q2 s Ho). unfold ca. cbn [m_sec]. rewrite S2. split; [exact L | exact N]. }
    assert (Hcb_out : forall s, In s (step_out st) -> ~ In s (step_in st) -> m_sec cb s = repeat e_ZERO (w s * (cur + next))).
    { intros s Hs Hni. rewrite (Q1 s Hs). unfold ca. cbn [m_sec]. rewrite S2, P2 by exact Hni.
      destruct (step_secs st s (HoutIo s Hs)) as [_ Hg]. unfold empty_ctx. cbn [m_sec].
      destruct s; try discriminate Hg; reflexivity. }
    (* sections of the whole memory *)
    assert (HG : forall s r c, In s io -> c < w s -> (s0 <= r \/ W s c = false) ->
              nth_error (m_sec G s) (r * w s + c) = nth_error (m_sec m0 s) (r * w s + c)).
    { intros s r c Hs Hcc Hr. destruct (step_secs st s Hs) as [Hne _].
      destruct (in_dec sec_dec s (step_out st)) as [Ho|Ho].
      - destruct (F5 s Ho) as [_ N]. rewrite N by (try exact Hcc; clear -Hr; intuition lia). unfold m1. rewrite m_set_other by exact Hne. reflexivity.
      - rewrite (F1 s Hne Ho). unfold m1. rewrite m_set_other by exact Hne. reflexivity. }
    assert (HGl : forall s, In s io -> length (m_sec G s) = n * w s).
    { intros s Hs. destruct (step_secs st s Hs) as [Hne _]. destruct (M1 s Hs) as [L _]. destruct (in_dec sec_dec s (step_out st)) as [Ho|Ho].
      - destruct (F5 s Ho) as [LL _]. rewrite LL. unfold m1. rewrite m_set_other by exact Hne. exact L.
      - rewrite (F1 s Hne Ho). unfold m1. rewrite m_set_other by exact Hne. exact L. }
    constructor.
    - intros s Hs. assert (Hne : s <> Stmp) by (intros ->; discriminate Hs).
      assert (Hni : ~ In s io) by (intros HH; destruct (step_secs st s HH) as [_ HH2]; rewrite Hs in HH2; discriminate HH2).
      rewrite F1; [|exact Hne | intros HH; apply Hni; now apply HoutIo]. unfold m1. rewrite !m_set_other by exact Hne. split; [reflexivity|].
      rewrite Q2 by (intros HH; apply Hni; now apply HoutIo). unfold ca. cbn [m_sec]. rewrite S2, P2 by (intros HH; apply Hni; now apply HinIo).
      unfold empty_ctx. cbn [m_sec]. destruct s; try discriminate Hs; reflexivity.
    - intros s Hs. split; [now apply HGl|]. rewrite (Hio s Hs). destruct (in_dec sec_dec s (step_in st)) as [Hi|Hi]; [exact (proj1 (Hcb_in s Hi))|].
      assert (Ho : In s (step_out st)) by (apply in_app_or in Hs; destruct Hs; [contradiction | assumption]).
      rewrite (Hcb_out s Ho Hi), repeat_length. apply Nat.mul_comm.
    - exact HB.
    - intros s r c Hs Hr Hcc Hw. rewrite (Hio s (HinIo s Hs)), (proj2 (Hcb_in s Hs)) by assumption. symmetry. apply HG; auto.
    - intros s r c Hs Hr Hcc Hw. rewrite (Hio s Hs). destruct (in_dec sec_dec s (step_in st)) as [Hi|Hi].
      + rewrite (proj2 (Hcb_in s Hi)) by lia. rewrite Nat.mod_small by lia. symmetry. apply HG; auto. left. lia.
      + assert (Ho : In s (step_out st)) by (apply in_app_or in Hs; destruct Hs; [contradiction | assumption]).
        rewrite HG by (auto; left; lia). rewrite (Hzero s (s0 + r) c Ho Hi) by (auto; lia). rewrite (Hcb_out s Ho Hi).
        rewrite nth_error_repeat; [reflexivity|]. rewrite (Nat.mul_comm (w s)). apply row_bound; lia.
    - intros s r c Hs Hni Hr Hcc Hw. rewrite (Hio s (HoutIo s Hs)), (Hcb_out s Hs Hni).
      rewrite nth_error_repeat; [reflexivity|]. rewrite (Nat.mul_comm (w s)). apply row_bound; lia.
    - intros Hx q Hq. cbn [m_set m_xdiv m_xdivw]. rewrite Q3, Q4, F2, F3. unfold ca, m1. cbn [m_xdiv m_xdivw m_set].
      destruct (X2 Hx q Hq) as [-> ->]. destruct (M2 Hx) as [L1 L2].
      destruct (nth_error (m_xdiv m0) (s0 * 3 + q)) as [a|] eqn:Ea; [|apply nth_error_None in Ea; lia].
      destruct (nth_error (m_xdivw m0) (s0 * 3 + q)) as [b|] eqn:Eb; [|apply nth_error_None in Eb; lia].
      exists a, b. repeat split.
    - intros j. cbn [m_set m_zi]. rewrite Q5, F4. unfold ca, m1. cbn [m_zi m_set]. rewrite M3, (zh_offset _ _ s0 j).
      destruct (zh_ok (si_nbits si) ext 0 (s0 + j) Hext) as [v Hv]. exists v. rewrite Hv. split; [reflexivity|]. split; [reflexivity|].
      exact (zh_base _ _ _ _ _ Hv).
    - split; [exact HT|]. rewrite m_set_same, repeat_length. split; [reflexivity|]. intros id [].
  Qed.

  (* what a finished chunk holds, compared to a state of the whole run *)
  Definition target (g : mem) (s : sec) (r c : nat) : option F3G :=
    if W s c then nth_error (m_sec g s) (r * w s + c)
    else if in_out s then nth_error (m_sec m0 s) (r * w s + c) else Some e_ZERO.
  Definition chunk_done (g : mem) (k : nat) (C : mem) : Prop :=
    forall s, In s (step_out st) -> length (m_sec C s) = (width_of k + next) * w s /\
      forall r c, r < width_of k -> c < w s -> nth_error (m_sec C s) (r * w s + c) = target g s (k * per + r) c.

  Lemma chunk_done_frame g g' k C lo hi : k * per + width_of k <= lo -> Frame lo hi g g' -> chunk_done g k C -> chunk_done g' k C.
  Proof.
    intros Hlo [_ [_ F5]] H s Hs. destruct (H s Hs) as [L N]. split; [exact L|]. intros r c Hr Hc. rewrite N by assumption.
    unfold target. destruct (W s c); [|reflexivity]. destruct (F5 s Hs) as [_ Q]. rewrite Q; [reflexivity | exact Hc | left; lia].
  Qed.

  Definition done_rows (k : nat) : nat := Nat.min n (k * per).
  Lemma done_S k : k * per < n -> done_rows k = k * per /\ done_rows (S k) = k * per + width_of k.
  Proof. intros H. unfold done_rows, width_of. rewrite Nat.mul_succ_l. lia. Qed.

  Lemma chunks_run : forall k, (forall i, i < k -> i * per < n) ->
    exists G cs cs', foldM (rowf blk) (seq 0 (done_rows k)) m1 = Ok G /\ Frame 0 (done_rows k) m1 G /\
      (forall s, In s io -> Forall (fun v => d3 v = false) (m_sec G s)) /\ length (m_sec G Stmp) = tused /\
      mapM (make_chunk si st m0 per) (map (fun i => i * per) (seq 0 k)) = Ok cs /\ length cs = k /\
      mapM (run_chunk si st seg per) (combine (seq 0 k) cs) = Ok cs' /\ length cs' = k /\
      forall i C, nth_error cs' i = Some C -> chunk_done G i C.
  Proof.
    induction k as [|k IH]; intros Hk.
    - exists m1, [], []. assert (done_rows 0 = 0) as -> by (unfold done_rows; lia). cbn [seq foldM map mapM combine length].
      split; [reflexivity|]. split; [apply frame_id|]. split.
      { intros s Hs. unfold m1. rewrite m_set_other by exact (proj1 (step_secs st s Hs)). destruct Hmem as [M1 _]. exact (proj2 (M1 s Hs)). }
      split; [unfold m1; rewrite m_set_same; apply repeat_length|]. do 4 (split; [reflexivity|]). intros i C HH. destruct i; discriminate HH.
    - destruct (IH (fun i Hi => Hk i ltac:(lia))) as [G [cs [cs' [E1 [F1 [B1 [T1 [E2 [L2 [E3 [L3 D3]]]]]]]]]]].
      pose proof (Hk k ltac:(lia)) as Hkn. destruct (done_S k Hkn) as [DK DS]. rewrite DK in *.
      destruct (chunk_start k G Hkn F1 B1 T1) as [c [C [M1 [M2 R]]]].
      assert (Hc : k * per + width_of k <= n) by (unfold width_of; lia).
      destruct (rows_agree si st W td tused m0 blk Hn Hlocal (k * per) (width_of k) Hc (width_of k) 0 G C R ltac:(lia)) as [G2 [C2 [E4 [E5 [R2 F2]]]]].
      rewrite Nat.add_0_r in E4, F2.
      exists G2, (cs ++ [c]), (cs' ++ [C2]). rewrite DS. split.
      { rewrite seq_app, foldM_app, E1. cbn [bind]. exact E4. }
      assert (F12 : Frame 0 (k * per + width_of k) m1 G2) by (refine (frame_comp si st W 0 (k * per) _ _ _ _ _ F1 F2); lia).
      split; [exact F12|].
      split; [exact (rl_base _ _ _ _ _ _ _ _ _ _ _ R2)|]. split; [exact (proj1 (rl_tmp _ _ _ _ _ _ _ _ _ _ _ R2))|].
      rewrite seq_S, Nat.add_0_l, map_app. cbn [map]. split.
      { rewrite mapM_app. rewrite E2. cbn [bind mapM]. rewrite M1. reflexivity. }
      split; [rewrite app_length, L2; cbn [length]; lia|]. split.
      { rewrite combine_app_len by (rewrite seq_length; now symmetry). rewrite mapM_app, E3. cbn [bind combine mapM].
        apply M2 in E5. rewrite E5. reflexivity. }
      split; [rewrite app_length, L3; cbn [length]; lia|].
      intros i C' Hi. destruct (lt_dec i k) as [Hik|Hik].
      + rewrite nth_error_app1 in Hi by lia. refine (chunk_done_frame G G2 i C' _ _ _ F2 (D3 i C' Hi)).
        pose proof (Nat.mul_le_mono_r (S i) k per Hik) as Hm. rewrite Nat.mul_succ_l in Hm. unfold width_of. lia.
      + rewrite nth_error_app2 in Hi by lia. rewrite L3 in Hi. destruct (i - k) as [|z] eqn:Ez; [|destruct z; discriminate Hi].
        injection Hi as <-. replace i with k by lia. intros s Hs.
        assert (HsIo : In s io) by (apply in_or_app; now right).
        split; [exact (proj2 (rl_len _ _ _ _ _ _ _ _ _ _ _ R2 s HsIo))|]. intros r c' Hr Hcc. unfold target.
        destruct (W s c') eqn:Ew; [exact (rl_own _ _ _ _ _ _ _ _ _ _ _ R2 s r c' HsIo Hr Hcc Ew)|].
        unfold in_out. destruct (in_dec sec_dec s (step_in st)) as [Hi'|Hi'].
        * rewrite (rl_clean _ _ _ _ _ _ _ _ _ _ _ R2 s r c' Hi') by (try assumption; lia). rewrite Nat.mod_small by lia.
          destruct F12 as [_ [_ F5]]. destruct (F5 s Hs) as [_ Q].
          rewrite Q by (auto). unfold m1. rewrite m_set_other by exact (proj1 (step_secs st s HsIo)). reflexivity.
        * exact (rl_zero _ _ _ _ _ _ _ _ _ _ _ R2 s r c' Hs Hi' Hr Hcc Ew).
  Qed.

  (* writing one section back *)
  Lemma write_section_ok k C g m s : k * per < n -> chunk_done g k C -> In s (step_out st) -> length (m_sec m s) = n * w s ->
    exists m', write_section si st per k C m s = Ok m' /\ (forall s', s' <> s -> m_sec m' s' = m_sec m s') /\
      length (m_sec m' s) = n * w s /\
      forall r c, r < n -> c < w s -> nth_error (m_sec m' s) (r * w s + c) =
        if (k * per <=? r) && (r <? k * per + width_of k) then target g s r c else nth_error (m_sec m s) (r * w s + c).
  Proof.
    intros Hk HD Hs HL. destruct (HD s Hs) as [L N]. unfold write_section. cbv zeta.
    assert (Hle : length (m_sec C s) - w s * next = width_of k * w s).
    { rewrite L, Nat.mul_add_distr_r, (Nat.mul_comm (w s)). apply Nat.add_sub. }
    destruct (Nat.ltb_spec (length (m_sec C s)) (w s * next)) as [Hlt|_].
    { exfalso. rewrite L, Nat.mul_add_distr_r, (Nat.mul_comm (w s)) in Hlt. lia. }
    rewrite Hle.
    assert (Hb : k * per * w s + width_of k * w s <= length (m_sec m s)).
    { rewrite HL, <- Nat.mul_add_distr_r. apply Nat.mul_le_mono_r. unfold width_of. lia. }
    assert (Hc : width_of k * w s <= length (m_sec C s)).
    { rewrite L, Nat.mul_add_distr_r. apply Nat.le_add_r. }
    destruct (copy_back (m_sec C s) (k * per * w s) (width_of k * w s) (m_sec m s) Hc Hb) as [out [E [Lo No]]].
    rewrite E. cbn [bind]. exists (m_set m s out). split; [reflexivity|]. split; [intros s' Hs'; now apply m_set_other|].
    rewrite m_set_same. split; [lia|]. intros r c Hr Hcc. rewrite No.
    destruct (Nat.leb_spec (k * per) r) as [H1|H1].
    - destruct (Nat.ltb_spec r (k * per + width_of k)) as [H2|H2]; cbn [andb].
      + assert (Hrk : r = k * per + (r - k * per)) by lia. set (q := r - k * per) in *. clearbody q. subst r.
        assert (Hq : q * w s + c < width_of k * w s) by (apply row_bound; [exact Hcc | lia]).
        rewrite Nat.mul_add_distr_r, <- Nat.add_assoc.
        replace (k * per * w s <=? k * per * w s + (q * w s + c)) with true by (symmetry; apply Nat.leb_le, Nat.le_add_r).
        replace (k * per * w s + (q * w s + c) <? k * per * w s + width_of k * w s) with true by (symmetry; apply Nat.ltb_lt; lia).
        cbn [andb]. rewrite (Nat.add_comm (k * per * w s)), Nat.add_sub. apply N; [lia | exact Hcc].
      + pose proof (Nat.mul_le_mono_r _ _ (w s) H2) as Hm. rewrite Nat.mul_add_distr_r in Hm.
        replace (r * w s + c <? k * per * w s + width_of k * w s) with false by (symmetry; apply Nat.ltb_ge; lia).
        rewrite andb_false_r. reflexivity.
    - pose proof (row_bound (w s) r c (k * per) Hcc H1) as Hm.
      replace (k * per * w s <=? r * w s + c) with false by (symmetry; apply Nat.leb_gt; exact Hm). reflexivity.
  Qed.

  Lemma write_all k C g : k * per < n -> chunk_done g k C -> forall L m, NoDup L -> (forall s, In s L -> In s (step_out st)) ->
    (forall s, In s L -> length (m_sec m s) = n * w s) ->
    exists m', foldM (write_section si st per k C) L m = Ok m' /\ (forall s, ~ In s L -> m_sec m' s = m_sec m s) /\
      forall s, In s L -> length (m_sec m' s) = n * w s /\
        forall r c, r < n -> c < w s -> nth_error (m_sec m' s) (r * w s + c) =
          if (k * per <=? r) && (r <? k * per + width_of k) then target g s r c else nth_error (m_sec m s) (r * w s + c).
  Proof.
    intros Hk HD. induction L as [|a L IH]; intros m ND Hsub HL.
    - exists m. split; [reflexivity|]. split; [reflexivity|]. intros s [].
    - inversion ND as [|x y Hna ND']; subst.
      destruct (write_section_ok k C g m a Hk HD (Hsub a (or_introl eq_refl)) (HL a (or_introl eq_refl))) as [ma [Ea [Oa [La Na]]]].
      assert (HL' : forall s, In s L -> length (m_sec ma s) = n * w s).
      { intros s Hs. rewrite Oa by (intros ->; contradiction). apply HL. now right. }
      destruct (IH ma ND' (fun s Hs => Hsub s (or_intror Hs)) HL') as [m' [E [O N]]].
      exists m'. cbn [foldM]. rewrite Ea. cbn [bind]. split; [exact E|]. split.
      + intros s Hs. rewrite O by (intros HH; apply Hs; now right). apply Oa. intros ->. apply Hs. now left.
      + intros s [<-|Hs]; [rewrite O by exact Hna; split; [exact La | exact Na]|].
        destruct (N s Hs) as [L1 N1]. split; [exact L1|]. intros r c Hr Hc. rewrite N1 by assumption.
        rewrite Oa by (intros ->; contradiction). reflexivity.
  Qed.

  Lemma step_out_nodup : NoDup (step_out st).
  Proof. destruct st; cbn [step_out]; repeat constructor; cbn [In]; intuition discriminate. Qed.

  Lemma write_chunks g cs : (forall i C, nth_error cs i = Some C -> chunk_done g i C) -> forall k, k <= length cs ->
    (forall i, i < k -> i * per < n) ->
    exists p, foldM (write_back si st per) (combine (seq 0 k) (firstn k cs)) m0 = Ok p /\
      (forall s, ~ In s (step_out st) -> m_sec p s = m_sec m0 s) /\
      forall s, In s (step_out st) -> length (m_sec p s) = n * w s /\
        forall r c, r < n -> c < w s -> nth_error (m_sec p s) (r * w s + c) =
          if r <? done_rows k then target g s r c else nth_error (m_sec m0 s) (r * w s + c).
  Proof.
    intros HD. induction k as [|k IH]; intros Hk Hkn.
    - exists m0. split; [reflexivity|]. split; [reflexivity|]. intros s Hs. destruct Hmem as [M1 _].
      split; [exact (proj1 (M1 s (in_or_app _ _ s (or_intror Hs))))|]. intros r c Hr Hc.
      replace (r <? done_rows 0) with false by (symmetry; apply Nat.ltb_ge; unfold done_rows; lia). reflexivity.
    - destruct (IH ltac:(lia) (fun i Hi => Hkn i ltac:(lia))) as [p [E [O N]]].
      destruct (nth_error cs k) as [C|] eqn:EC; [|apply nth_error_None in EC; lia].
      pose proof (Hkn k ltac:(lia)) as Hkk. destruct (done_S k Hkk) as [DK DS].
      destruct (write_all k C g Hkk (HD k C EC) (step_out st) p step_out_nodup (fun s H => H) (fun s Hs => proj1 (N s Hs))) as [p' [E' [O' N']]].
      exists p'. rewrite seq_S, Nat.add_0_l.
      assert (Hf : firstn (S k) cs = firstn k cs ++ [C]).
      { apply firstn_nth. exact EC. }
      rewrite Hf, combine_app_len by (rewrite seq_length, firstn_length; lia). rewrite foldM_app, E. cbn [bind combine foldM write_back].
      rewrite E'. cbn [bind]. split; [reflexivity|]. split; [intros s Hs; rewrite O' by exact Hs; now apply O|].
      intros s Hs. destruct (N' s Hs) as [L1 N1]. destruct (N s Hs) as [_ N2]. split; [exact L1|]. intros r c Hr Hc. rewrite N1, N2 by assumption.
      rewrite DK, DS. destruct (Nat.leb_spec (k * per) r) as [H1|H1]; destruct (Nat.ltb_spec r (k * per + width_of k)) as [H2|H2]; cbn [andb].
      + reflexivity.
      + replace (r <? k * per) with false by (symmetry; apply Nat.ltb_ge; lia). reflexivity.
      + replace (r <? k * per) with true by (symmetry; apply Nat.ltb_lt; lia). reflexivity.
      + lia.
  Qed.

  Theorem chunked_agrees : exists g p,
    calculate_exps m0 si seg (step_dom st) n = Ok g /\ exps_chunked si st m0 seg per = Ok p /\
    (forall s, s <> Stmp -> ~ In s (step_out st) -> m_sec g s = m_sec m0 s /\ m_sec p s = m_sec m0 s) /\
    (forall s, In s (step_out st) -> length (m_sec g s) = n * w s /\ length (m_sec p s) = n * w s /\
       forall r c, r < n -> c < w s ->
         (W s c = false -> nth_error (m_sec g s) (r * w s + c) = nth_error (m_sec m0 s) (r * w s + c)) /\
         nth_error (m_sec p s) (r * w s + c) = target g s r c).
  Proof.
    set (K := (n + per - 1) / per).
    assert (HK : forall i, i < K -> i * per < n).
    { intros i Hi. unfold K in Hi.
      pose proof (Nat.mul_div_le (n + per - 1) per Hper) as Hd. rewrite Nat.mul_comm in Hd.
      pose proof (Nat.mul_le_mono_r (S i) _ per Hi) as Hm. rewrite Nat.mul_succ_l in Hm. lia. }
    assert (Hall : done_rows K = n).
    { unfold done_rows. apply Nat.min_l. unfold K. pose proof (Nat.div_mod (n + per - 1) per Hper) as Hd.
      pose proof (Nat.mod_upper_bound (n + per - 1) per Hper). rewrite Nat.mul_comm in Hd. lia. }
    destruct (chunks_run K HK) as [g [cs [cs' [E1 [F1 [_ [_ [E2 [L2 [E3 [L3 D3]]]]]]]]]]]. rewrite Hall in *.
    destruct (write_chunks g cs' D3 K ltac:(lia) HK) as [p [E4 [O4 N4]]].
    exists g, p. split.
    { unfold calculate_exps. rewrite Hblk. cbn [bind]. exact E1. }
    split.
    { unfold exps_chunked, chunk_starts. fold K. rewrite E2. cbn [bind]. rewrite L2, E3. cbn [bind]. rewrite L3.
      rewrite firstn_all2 in E4 by lia. exact E4. }
    destruct F1 as [F1 [_ F5]]. split.
    - intros s H1 H2. split; [|now apply O4]. rewrite (F1 s H1 H2). unfold m1. now apply m_set_other.
    - intros s Hs. destruct (F5 s Hs) as [L5 N5]. destruct (N4 s Hs) as [L4' N4'].
      assert (Hne : s <> Stmp) by exact (proj1 (step_secs st s (in_or_app _ _ s (or_intror Hs)))).
      split.
      { rewrite L5. unfold m1. rewrite m_set_other by exact Hne. destruct Hmem as [M1 _]. exact (proj1 (M1 s (in_or_app _ _ s (or_intror Hs)))). }
      split; [exact L4'|]. intros r c Hr Hc. split.
      + intros Hw. rewrite N5 by auto. unfold m1. now rewrite m_set_other.
      + rewrite N4' by assumption. rewrite Hall. replace (r <? n) with true by (symmetry; now apply Nat.ltb_lt). reflexivity.
  Qed.
End All.

(* ---------- the two functions ---------- *)
(* sections that are only written start as zero *)
Definition outputs_fresh (si : sinfo) (st : pstep) (m : mem) : Prop :=
  forall s, In s (step_out st) -> ~ In s (step_in st) -> Forall (fun v => v = e_ZERO) (m_sec m s).

Lemma dom_facts si st : si_nbits si <= si_nbits_ext si -> par_n si st <> 0 /\ par_next si st <= par_n si st.
Proof.
  intros H. unfold par_n, par_next, dom_size, dom_next.
  assert (P : forall k, 2 ^ k <> 0) by (intros k; apply Nat.pow_nonzero; discriminate).
  destruct (step_dom st).
  - split; [apply P|]. pose proof (P (si_nbits si)). lia.
  - split; [apply P|]. apply Nat.pow_le_mono_r; [discriminate | lia].
Qed.

Lemma fresh_zero si st W m : mem_ok si st m -> outputs_fresh si st m -> out_zero si st W m.
Proof.
  intros [M _] HF s r c Hs Hi Hr Hc _. specialize (HF s Hs Hi).
  destruct (M s (in_or_app _ _ s (or_intror Hs))) as [L _].
  pose proof (row_bound _ r c _ Hc Hr) as Hb. rewrite <- L in Hb.
  destruct (nth_error (m_sec m s) (r * sec_width si s + c)) as [v|] eqn:E; [|apply nth_error_None in E; lia].
  rewrite Forall_forall in HF. rewrite (HF v); [reflexivity|]. now apply nth_error_In in E.
Qed.

Lemma list_ext {A} (l l' : list A) k w : length l = k * w -> length l' = k * w ->
  (forall r c, r < k -> c < w -> nth_error l (r * w + c) = nth_error l' (r * w + c)) -> l = l'.
Proof.
  intros H1 H2 H. apply nth_error_ext. intros i. destruct (lt_dec i (k * w)) as [L|L].
  - destruct (row_split w i k L) as [r [c [-> [Hr Hc]]]]. now apply H.
  - rewrite (proj2 (nth_error_None l i)), (proj2 (nth_error_None l' i)) by lia. reflexivity.
Qed.

Theorem chunks_same si st W td m seg blk per :
  si_nbits si <= si_nbits_ext si <= 32 -> per <> 0 ->
  par_n si st <= per \/ par_next si st <= (par_n si st - 1) mod per + 1 ->
  compile_code si (sg_first seg) (step_dom st) false = Ok blk ->
  row_local si st W td (sg_tmp seg) m [] blk -> mem_ok si st m -> outputs_fresh si st m ->
  exists g p, calculate_exps m si seg (step_dom st) (par_n si st) = Ok g /\ exps_chunked si st m seg per = Ok p /\
    forall s, s <> Stmp -> m_sec p s = m_sec g s.
Proof.
  intros Hb Hper Hlast Hblk Hloc Hmem Hfresh. destruct (dom_facts si st (proj1 Hb)) as [Hn Hnext].
  destruct (chunked_agrees si st W td m seg blk per Hblk Hloc Hmem (fresh_zero si st W m Hmem Hfresh) ltac:(lia) Hper Hn Hnext Hlast)
    as [g [p [Eg [Ep [Ho Hs]]]]].
  exists g, p. split; [exact Eg|]. split; [exact Ep|]. intros s Hne.
  destruct (in_dec sec_dec s (step_out st)) as [Hi|Hi].
  - destruct (Hs s Hi) as [Lg [Lp N]]. apply (list_ext _ _ (par_n si st) (sec_width si s) Lp Lg).
    intros r c Hr Hc. destruct (N r c Hr Hc) as [N1 ->]. unfold target.
    destruct (W s c) eqn:Ew; [reflexivity|]. rewrite N1 by reflexivity. unfold in_out.
    destruct (in_dec sec_dec s (step_in st)) as [Hin|Hin]; [reflexivity|].
    destruct Hmem as [M _]. destruct (M s (in_or_app _ _ s (or_intror Hi))) as [L _].
    pose proof (row_bound _ r c _ Hc Hr) as Hbd. rewrite <- L in Hbd. specialize (Hfresh s Hi Hin).
    destruct (nth_error (m_sec m s) (r * sec_width si s + c)) as [v|] eqn:E; [|apply nth_error_None in E; lia].
    rewrite Forall_forall in Hfresh. rewrite (Hfresh v); [reflexivity|]. now apply nth_error_In in E.
  - destruct (Ho s Hne Hi) as [-> ->]. reflexivity.
Qed.

(* the rows per worker are never zero *)
Lemma rows_per_thread_pos workers n per : rows_per_thread workers n = Ok per -> per <> 0.
Proof.
  unfold rows_per_thread. destruct (workers =? 0); intros H; [discriminate H|].
  apply (f_equal (fun x => match x with Ok y => y | _ => 0 end)) in H. cbv beta iota in H. rewrite <- H.
  assert (HM : 1 <= MIN_OPS) by (apply Nat.leb_le; vm_compute; reflexivity).
  revert HM. generalize MIN_OPS, (Nat.min MAX_OPS ((n - 1) / workers + 1)). intros a b Ha. lia.
Qed.

Theorem parallel_same si st W td m seg blk workers per :
  si_nbits si <= si_nbits_ext si <= 32 -> rows_per_thread workers (par_n si st) = Ok per ->
  par_n si st <= per \/ par_next si st <= (par_n si st - 1) mod per + 1 ->
  compile_code si (sg_first seg) (step_dom st) false = Ok blk ->
  row_local si st W td (sg_tmp seg) m [] blk -> mem_ok si st m -> outputs_fresh si st m ->
  exists g p, calculate_exps m si seg (step_dom st) (par_n si st) = Ok g /\ calculate_exps_parallel si st m seg workers = Ok p /\
    forall s, s <> Stmp -> m_sec p s = m_sec g s.
Proof.
  intros Hb Hper Hlast Hblk Hloc Hmem Hfresh. unfold calculate_exps_parallel. rewrite Hper. cbn [bind].
  apply (chunks_same si st W td m seg blk per Hb (rows_per_thread_pos _ _ _ Hper) Hlast Hblk Hloc Hmem Hfresh).
Qed.
(* on the domain of the trace one row follows, so that every split works *)
Theorem parallel_same_n si st W td m seg blk workers : step_dom st = true ->
  si_nbits si <= si_nbits_ext si <= 32 -> workers <> 0 ->
  compile_code si (sg_first seg) (step_dom st) false = Ok blk ->
  row_local si st W td (sg_tmp seg) m [] blk -> mem_ok si st m -> outputs_fresh si st m ->
  exists g p, calculate_exps m si seg (step_dom st) (par_n si st) = Ok g /\ calculate_exps_parallel si st m seg workers = Ok p /\
    forall s, s <> Stmp -> m_sec p s = m_sec g s.
Proof.
  intros Hd Hb Hw Hblk Hloc Hmem Hfresh.
  destruct (rows_per_thread workers (par_n si st)) as [per| | |] eqn:Hper;
    try (unfold rows_per_thread in Hper; rewrite (proj2 (Nat.eqb_neq _ _) Hw) in Hper; discriminate Hper).
  apply (parallel_same si st W td m seg blk workers per Hb Hper); try assumption.
  right. unfold par_next, dom_next. rewrite Hd. lia.
Qed.

(* columns of output-only sections which the program leaves alone come back as zero *)
Theorem parallel_exact si st W td m seg blk workers per :
  si_nbits si <= si_nbits_ext si <= 32 -> rows_per_thread workers (par_n si st) = Ok per ->
  par_n si st <= per \/ par_next si st <= (par_n si st - 1) mod per + 1 ->
  compile_code si (sg_first seg) (step_dom st) false = Ok blk ->
  row_local si st W td (sg_tmp seg) m [] blk -> mem_ok si st m -> out_zero si st W m ->
  exists g p, calculate_exps m si seg (step_dom st) (par_n si st) = Ok g /\ calculate_exps_parallel si st m seg workers = Ok p /\
    (forall s, s <> Stmp -> ~ In s (step_out st) -> m_sec p s = m_sec g s) /\
    (forall s r c, In s (step_out st) -> r < par_n si st -> c < sec_width si s ->
       (W s c = false -> nth_error (m_sec g s) (r * sec_width si s + c) = nth_error (m_sec m s) (r * sec_width si s + c)) /\
       nth_error (m_sec p s) (r * sec_width si s + c) =
         if W s c || in_out st s then nth_error (m_sec g s) (r * sec_width si s + c) else Some e_ZERO).
Proof.
  intros Hb Hper Hlast Hblk Hloc Hmem Hzero. destruct (dom_facts si st (proj1 Hb)) as [Hn Hnext].
  unfold calculate_exps_parallel. rewrite Hper. cbn [bind].
  destruct (chunked_agrees si st W td m seg blk per Hblk Hloc Hmem Hzero ltac:(lia) (rows_per_thread_pos _ _ _ Hper) Hn Hnext Hlast)
    as [g [p [Eg [Ep [Ho Hs]]]]].
  exists g, p. split; [exact Eg|]. split; [exact Ep|]. split.
  - intros s H1 H2. destruct (Ho s H1 H2) as [-> ->]. reflexivity.
  - intros s r c Hi Hr Hc. destruct (Hs s Hi) as [_ [_ N]]. destruct (N r c Hr Hc) as [N1 N2]. split; [exact N1|].
    rewrite N2. unfold target. destruct (W s c) eqn:Ew; cbn [orb]; [reflexivity|]. rewrite N1 by reflexivity. reflexivity.
Qed.

(* ---------- a last chunk shorter than the rows that follow ---------- *)
Definition ok_or_panic {A} (r : res A) : Prop := match r with Ok _ | Panic => True | _ => False end.
Lemma mapM_op {A B} (f : A -> res B) l : (forall x, ok_or_panic (f x)) -> ok_or_panic (mapM f l).
Proof.
  intros H. induction l as [|x l IH]; [exact I|]. cbn [mapM]. specialize (H x). destruct (f x); try contradiction; [|exact I].
  cbn [bind]. destruct (mapM f l); try contradiction; exact I.
Qed.
Lemma mapM_panic {A B} (f : A -> res B) l x : (forall x, ok_or_panic (f x)) -> In x l -> f x = Panic -> mapM f l = Panic.
Proof.
  intros H. induction l as [|y l IH]; intros Hx Hp; [contradiction|]. cbn [mapM].
  destruct Hx as [->|Hx]; [rewrite Hp; reflexivity|]. pose proof (H y) as Hy. destruct (f y); try contradiction; [|reflexivity].
  cbn [bind]. rewrite (IH Hx Hp). reflexivity.
Qed.
Lemma vget_op {A} (l : list A) i : ok_or_panic (vget l i).
Proof. unfold vget. destruct (nth_error l i); exact I. Qed.
Lemma copy_op {A} (l : list A) w n i cur next : ok_or_panic (copy_rows l w n i cur next).
Proof.
  unfold copy_rows. pose proof (mapM_op (fun j => vget l (i * w + j)) (seq 0 (cur * w)) (fun x => vget_op _ _)) as H1.
  destruct (mapM _ (seq 0 (cur * w))); try contradiction; [|exact I]. cbn [bind].
  pose proof (mapM_op (fun j => vget l ((i + cur) mod n * w + j)) (seq 0 (next * w)) (fun x => vget_op _ _)) as H2.
  destruct (mapM _ (seq 0 (next * w))); try contradiction; exact I.
Qed.
Lemma sets_op (f : sec -> res (list F3G)) L : (forall s, ok_or_panic (f s)) -> forall c,
  ok_or_panic (foldM (fun c s => do l <- f s; Ok (m_set c s l)) L c).
Proof.
  intros H. induction L as [|a L IH]; intros c; [exact I|]. cbn [foldM]. specialize (H a). destruct (f a); try contradiction; [|exact I].
  cbn [bind]. apply IH.
Qed.
Lemma sets_panic (f : sec -> res (list F3G)) L s : (forall s, ok_or_panic (f s)) -> In s L -> f s = Panic -> forall c,
  foldM (fun c s => do l <- f s; Ok (m_set c s l)) L c = Panic.
Proof.
  intros H. induction L as [|a L IH]; intros Hs Hp c; [contradiction|]. cbn [foldM].
  destruct Hs as [->|Hs]; [rewrite Hp; reflexivity|]. pose proof (H a) as Ha. destruct (f a); try contradiction; [|reflexivity].
  cbn [bind]. now apply IH.
Qed.

Theorem short_chunk_panics si st m seg per s :
  per <> 0 -> per < par_n si st -> (par_n si st - 1) mod per + 1 < par_next si st ->
  In s (step_in st) -> 0 < sec_width si s -> length (m_sec m s) = par_n si st * sec_width si s ->
  exps_chunked si st m seg per = Panic.
Proof.
  intros Hper Hpn Hlast Hs Hw HL. unfold exps_chunked.
  set (n := par_n si st) in *. set (w := sec_width si s) in *.
  assert (Hop : forall i, ok_or_panic (make_chunk si st m per i)).
  { intros i. unfold make_chunk. cbv zeta.
    pose proof (sets_op (fun s => copy_rows (m_sec m s) (sec_width si s) (par_n si st) i (Nat.min per (par_n si st - i)) (par_next si st)) (step_in st) (fun s => copy_op _ _ _ _ _ _) (empty_ctx m)) as H1.
    destruct (foldM _ (step_in st) (empty_ctx m)); try contradiction; [|exact I]. cbn [bind].
    destruct (step_xdiv st); [|exact I].
    pose proof (copy_op (m_xdiv m) 3 (par_n si st) i (Nat.min per (par_n si st - i)) (par_next si st)) as H2.
    destruct (copy_rows (m_xdiv m) _ _ _ _ _); try contradiction; [|exact I]. cbn [bind].
    pose proof (copy_op (m_xdivw m) 3 (par_n si st) i (Nat.min per (par_n si st - i)) (par_next si st)) as H3.
    destruct (copy_rows (m_xdivw m) _ _ _ _ _); try contradiction; exact I. }
  pose proof (Nat.div_mod (n - 1) per Hper) as Hd. set (q := (n - 1) / per) in *. set (z := (n - 1) mod per) in *.
  assert (Hz : z < per) by (now apply Nat.mod_upper_bound). rewrite Nat.mul_comm in Hd.
  assert (Hq : 0 < q) by (destruct q; [cbn [Nat.mul] in Hd; lia | lia]).
  assert (Hstart : In ((q - 1) * per) (chunk_starts si st per)).
  { unfold chunk_starts. apply in_map_iff. exists (q - 1). split; [reflexivity|]. apply in_seq. split; [lia|]. rewrite Nat.add_0_l. fold n.
    assert (Hqq : q <= (n + per - 1) / per); [|lia]. apply Nat.div_le_lower_bound; [exact Hper|]. rewrite Nat.mul_comm. lia. }
  rewrite (mapM_panic _ _ _ Hop Hstart); [reflexivity|].
  unfold make_chunk. cbv zeta. fold n.
  assert (Hqp : q * per = (q - 1) * per + per) by (rewrite <- Nat.mul_succ_l; f_equal; lia).
  set (i := (q - 1) * per) in *.
  assert (Hcur : Nat.min per (n - i) = per) by (apply Nat.min_l; lia). rewrite Hcur.
  rewrite (sets_panic _ _ s); [reflexivity | intros s'; apply copy_op | exact Hs|].
  unfold copy_rows. fold w.
  pose proof (mapM_op (fun j => vget (m_sec m s) (i * w + j)) (seq 0 (per * w)) (fun x => vget_op _ _)) as H1.
  destruct (mapM _ (seq 0 (per * w))); try contradiction; [|reflexivity]. cbn [bind].
  rewrite (Nat.mod_small (i + per)) by lia.
  rewrite (mapM_panic _ _ ((n - (i + per)) * w)); [reflexivity | intros x; apply vget_op | |].
  - apply in_seq. split; [apply Nat.le_0_l|]. rewrite Nat.add_0_l. apply Nat.mul_lt_mono_pos_r; lia.
  - unfold vget. rewrite (proj2 (nth_error_None _ _)); [reflexivity|]. rewrite HL, <- Nat.mul_add_distr_r.
    apply Nat.mul_le_mono_r. lia.
Qed.

(* ---------- examples ---------- *)
Definition ex_si : sinfo :=
  mkSI [(Scm1_n, 0, 1); (Scm1_n, 1, 1); (Stmpexp_n, 0, 3); (Scm2_n, 0, 1)] [0; 1; 3] [] [2]
       (fun s => match s with Scm1_n => 2 | Scm2_n => 1 | Stmpexp_n => 3 | _ => 0 end) 1 1 2 3.
(* tmp0 = cm0 + const0'; tmpexp0 = tmp0 * challenge0; cm2 = cm1' - tmp0 *)
Definition ex_seg : segment :=
  mkSeg [ mkI CAdd (N_new Ntmp 0 None false) [N_new Ncm 0 None false; N_new Nconst 0 None true];
          mkI CMul (N_new NtmpExp 0 None false) [N_new Ntmp 0 None false; N_new Nchallenge 0 None false];
          mkI CSub (N_new Ncm 2 None false) [N_new Ncm 1 None true; N_new Ntmp 0 None false] ] 1.
Definition fk (k : nat) : Fr := Nat.iter k (fun x => fadd x f1) f0.
Definition ex_mem : mem :=
  mkM (fun s => match s with
                | Scm1_n => map (fun k => e_from (fk k)) [1; 2; 3; 4; 5; 6; 7; 8]
                | Sconst_n => map (fun k => e_from (fk k)) [1; 0; 0; 2]
                | Stmpexp_n => repeat e_ZERO 12
                | Scm2_n => repeat e_ZERO 4
                | Schallenge => [e_new (fk 1) (fk 2) (fk 3)]
                | _ => []
                end) [] [] (build_Zh_Inv 2 1 0).
Definition ex_W (s : sec) (c : nat) : bool := match s with Stmpexp_n => c <? 3 | Scm2_n => c <? 1 | _ => false end.

(* an empty program *)
Definition no_si : sinfo :=
  mkSI [] [] [] [] (fun s => match s with Stmpexp_n => 1 | _ => 0 end) 0 1 0 1.
Definition no_mem : mem :=
  mkM (fun s => match s with Stmpexp_n => [e_ONE] | Sx_n => [e_ONE] | _ => [] end) [] [] (build_Zh_Inv 0 1 0).
Definition no_seg : segment := mkSeg [] 0.

Lemma ex_local : exists blk, compile_code ex_si (sg_first ex_seg) true false = Ok blk /\
  row_local ex_si Step2prev ex_W (fun _ => false) 1 ex_mem [] blk.
Proof.
  set (f := compile_code ex_si (sg_first ex_seg) true false). vm_compute in f. subst f.
  eexists. split; [reflexivity|].
  assert (Hclean : forall s off nx D, In s (step_in Step2prev) -> nx <= 1 -> off + 1 <= sec_width ex_si s -> (forall c, ex_W s c = false) -> sec_eqb s Stmp = false -> global s = false ->
    readable ex_si Step2prev ex_W ex_mem D (Refer (mkR (RSec s) false off nx 4 (sec_width ex_si s)))).
  { intros s off nx D H1 H2 H3 H4 H5 H6. unfold readable. cbn [r_sym r_three r_off r_next r_mod r_size]. rewrite H5, H6.
    split; [reflexivity|]. split; [reflexivity|]. split; [exact H3|]. left. split; [exact H1|]. split; [exact H2|]. intros c _. apply H4. }
  assert (Ht : readable ex_si Step2prev ex_W ex_mem [0] (Refer (mkR (RSec Stmp) false 0 0 4 0))).
  { split; [now left|]. split; reflexivity. }
  cbn [row_local op_args]. split.
  { constructor; [|constructor; [|constructor]].
    - apply (Hclean Scm1_n 0 0); try reflexivity; cbn; auto.
    - apply (Hclean Sconst_n 0 1); try reflexivity; cbn; auto. }
  split; [split; [cbn; lia | reflexivity]|]. split; [intros _; repeat constructor|]. split.
  { constructor; [exact Ht|]. constructor; [|constructor]. split; [cbn; lia|]. split; reflexivity. }
  split.
  { split; [cbn; auto|]. split; [reflexivity|]. split; [reflexivity|]. split; [reflexivity|]. split; [cbn; lia|].
    intros c Hc. apply Nat.ltb_lt. cbn in Hc. lia. }
  split; [intros HH; discriminate HH|]. split.
  { constructor; [|constructor; [exact Ht | constructor]]. apply (Hclean Scm1_n 1 1); try reflexivity; cbn; auto. }
  split.
  { split; [cbn; auto|]. split; [reflexivity|]. split; [reflexivity|]. split; [reflexivity|]. split; [cbn; lia|].
    intros c Hc. apply Nat.ltb_lt. cbn in Hc. lia. }
  split; [intros _; repeat constructor | exact I].
Qed.
Lemma base_list ks : Forall (fun v => d3 v = false) (map (fun k => e_from (fk k)) ks).
Proof. induction ks as [|k ks IH]; constructor; [reflexivity | exact IH]. Qed.
Lemma zero_list k : Forall (fun v => v = e_ZERO) (repeat e_ZERO k) /\ Forall (fun v => d3 v = false) (repeat e_ZERO k).
Proof. induction k as [|k [IH1 IH2]]; split; constructor; try assumption; reflexivity. Qed.
Lemma ex_mem_ok : mem_ok ex_si Step2prev ex_mem /\ outputs_fresh ex_si Step2prev ex_mem.
Proof.
  split; [split; [|split]|].
  - intros s Hs. cbn [step_in step_out app In] in Hs.
    destruct Hs as [<-|[<-|[<-|[<-|[<-|[]]]]]].
    + split; [reflexivity | exact (base_list [1; 2; 3; 4; 5; 6; 7; 8])].
    + split; [reflexivity | exact (base_list [1; 0; 0; 2])].
    + split; [reflexivity | exact (proj2 (zero_list 4))].
    + split; [reflexivity | constructor].
    + split; [reflexivity | exact (proj2 (zero_list 12))].
  - intros HH. discriminate HH.
  - intros i. reflexivity.
  - intros s Hs _. cbn [step_out In] in Hs. destruct Hs as [<-|[<-|[<-|[]]]].
    + exact (proj1 (zero_list 4)).
    + constructor.
    + exact (proj1 (zero_list 12)).
Qed.

Lemma output_only_differs : exists si st m seg workers,
  mem_ok si st m /\ row_local si st (fun _ _ => false) (fun _ => false) (sg_tmp seg) m [] [] /\
  compile_code si (sg_first seg) (step_dom st) false = Ok [] /\
  rmap (fun g => m_sec g Stmpexp_n) (calculate_exps m si seg (step_dom st) (par_n si st)) = Ok [e_ONE] /\
  rmap (fun p => m_sec p Stmpexp_n) (calculate_exps_parallel si st m seg workers) = Ok [e_ZERO].
Proof.
  exists no_si, Step3, no_mem, no_seg, 1. split; [split; [|split]|].
  - intros s Hs. cbn [step_in step_out app In] in Hs.
    repeat destruct Hs as [<-|Hs]; try contradiction; (split; [reflexivity | repeat constructor]).
  - intros HH. discriminate HH.
  - intros i. reflexivity.
  - split; [exact I|]. split; [reflexivity|]. split; vm_compute; reflexivity.
Qed.
