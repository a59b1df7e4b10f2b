(* The n-domain segments of the prover run by the parallel evaluator: what the columns hold afterwards, in terms of the
   rows of the memory. *)
From Coq Require Import Arith.
From Verif Require Import Base GlModel FrField F3gModel Cubic F3gProof ListAux PolyModel CodegenModel CodegenProof InterpModel InterpProof BnProof FftpBase
  VerifierModel VerifierProof HashModel FriModel FftpModel ProverModel ProverProof ParModel ParProof StarkModel StarkGen StarkRow StarkSrc StageModel StarkExtend StarkStages NStep NGen.
Open Scope nat_scope.
Open Scope list_scope.
Open Scope res_scope.

(* what a reference means in row g of the trace held in memory *)
Definition row_of (si : sinfo) (m : mem) (g : nat) (r : node) : F3G :=
  match n_ty r with
  | Ncm => match place si (n_id r) with Some (s, pos, dim) => elem (m_sec m s) (si_width si s) pos dim (nrow si g (n_prime r)) | None => e_ZERO end
  | Nconst => nth (n_id r + nrow si g (n_prime r) * si_nconst si) (m_sec m Sconst_n) e_ZERO
  | Nnumber => match number_ref (n_value r) with Ok v => v | _ => e_ZERO end
  | Npublic => nth (n_id r) (m_sec m Spublics) e_ZERO
  | Nchallenge => nth (n_id r) (m_sec m Schallenge) e_ZERO
  | Nx => nth g (m_sec m Sx_n) e_ZERO
  | _ => e_ZERO
  end.

Lemma nrow_mod si g (p : bool) : g < 2 ^ si_nbits si -> (g + if p then 1 else 0) mod 2 ^ si_nbits si = nrow si g p.
Proof. intros H. unfold nrow. destruct p; [reflexivity|]. rewrite Nat.add_0_r. now apply Nat.mod_small. Qed.
Lemma row_read si st m W g r : step_dom st = true -> mem_ok si st m -> (forall s, In s (step_in st ++ step_out st) -> Forall vbase (m_sec m s)) ->
  g < 2 ^ si_nbits si -> lread si st m W r -> read_ref si true g m r = Ok (row_of si m g r).
Proof.
  intros Hd [M _] B Hg L. unfold par_n in M. rewrite Hd in M. cbn [dom_size] in M. unfold lread in L. unfold row_of. destruct (n_ty r) eqn:Et; try contradiction.
  - destruct L as [s [pos [dim [Hc [[Hd3 [Hs [Hw Hp]]] [Hin _]]]]]]. rewrite (col_read si m r true s pos dim g (or_introl Et) eq_refl); [|rewrite Et; exact Hc | exact Hd3].
    unfold ncol in Hc. unfold place. destruct (nth_error (si_cm_n si) (n_id r)) as [q|]; [|discriminate Hc]. rewrite Hc.
    unfold get_value. cbn [r_sym r_three]. unfold get_i. cbn [r_off r_next r_mod r_size]. rewrite (nrow_mod si g (n_prime r) Hg).
    pose proof (nrow_lt si g (n_prime r) Hg) as Hr. set (k := nrow si g (n_prime r)) in *. clearbody k. destruct (M s Hs) as [Ml _].
    assert (Hb : k * si_width si s + si_width si s <= length (m_sec m s)).
    { rewrite Ml, Hw. rewrite <- Nat.mul_succ_l. apply Nat.mul_le_mono_r. exact Hr. }
    rewrite Hw in Hb. rewrite Hw. unfold elem. destruct Hd3 as [-> | ->]; cbn [Nat.eqb].
    + apply vget_nth. lia.
    + apply three_elem; [apply B, Hs | lia].
  - destruct L as [Hlt [Hin _]]. assert (Hs : In Sconst_n (step_in st ++ step_out st)) by (apply in_or_app; now left).
    unfold read_ref, get_ref. rewrite Et. cbn [bind]. unfold InterpModel.cell. cbn [operand_value]. unfold get_value. cbn [r_sym r_three].
    unfold get_i. cbn [r_off r_next r_mod r_size dom_size]. rewrite (nrow_mod si g (n_prime r) Hg). destruct (M _ Hs) as [Ml _]. cbn [sec_width] in Ml.
    pose proof (nrow_lt si g (n_prime r) Hg) as Hr. set (k := nrow si g (n_prime r)) in *. clearbody k.
    apply vget_nth. rewrite Ml. apply Nat.lt_le_trans with (k * si_nconst si + si_nconst si); [lia|]. rewrite <- Nat.mul_succ_l. apply Nat.mul_le_mono_r. exact Hr.
  - destruct L as [v Hv]. unfold read_ref, get_ref. rewrite Et, Hv. reflexivity.
  - unfold read_ref, get_ref. rewrite Et. cbn [bind]. unfold InterpModel.cell. cbn [operand_value]. unfold get_value. cbn [r_sym r_three].
    unfold get_i. cbn [r_off r_next r_mod r_size]. rewrite Nat.mul_0_r, Nat.add_0_r. apply vget_nth. exact L.
  - unfold read_ref, get_ref. rewrite Et. cbn [bind]. unfold InterpModel.cell. cbn [operand_value]. unfold get_value. cbn [r_sym r_three].
    unfold get_i. cbn [r_off r_next r_mod r_size]. rewrite Nat.mul_0_r, Nat.add_0_r. apply vget_nth. exact L.
  - destruct L as [Hin _]. assert (Hs : In Sx_n (step_in st ++ step_out st)) by (apply in_or_app; now left). destruct (M _ Hs) as [Ml _]. cbn [sec_width] in Ml.
    unfold read_ref, get_ref. rewrite Et. cbn [bind]. unfold InterpModel.cell. cbn [operand_value]. unfold get_value. cbn [r_sym r_three].
    unfold get_i. cbn [r_off r_next r_mod r_size dom_size]. rewrite Nat.add_0_r, Nat.add_0_l, Nat.mul_1_r, (Nat.mod_small g) by exact Hg. apply vget_nth. rewrite Ml. lia.
Qed.

(* expressions whose value has three components: they contain a challenge or a column of dimension 3 *)
Inductive wide (si : sinfo) (m : mem) (tbl : list expr) (p : bool) : expr -> Prop :=
| W_left e a b r : e_op e = OAdd \/ e_op e = OSub \/ e_op e = OMul -> e_values e = a :: b :: r -> wide si m tbl p a -> wide si m tbl p e
| W_right e a b r : e_op e = OAdd \/ e_op e = OSub \/ e_op e = OMul -> e_values e = a :: b :: r -> wide si m tbl p b -> wide si m tbl p e
| W_one e a r : e_op e = OAddc \/ e_op e = OMulc \/ e_op e = ONeg -> e_values e = a :: r -> wide si m tbl p a -> wide si m tbl p e
| W_exp e i e' : e_op e = OExp -> e_id e = Some i -> nth_error tbl i = Some e' -> wide si m tbl (e_next e || p) e' -> wide si m tbl p e
| W_cm e i s pos : e_op e = OCm -> e_id e = Some i -> place si i = Some (s, pos, 3) -> wide si m tbl p e
| W_challenge e i : e_op e = OChallenge -> e_id e = Some i -> d3 (nth i (m_sec m Schallenge) e_ZERO) = true -> wide si m tbl p e.
Lemma wide_d3 si m tbl g p e : wide si m tbl p e -> forall v, den tbl (row_of si m g) p e v -> d3 v = true.
Proof.
  induction 1 as [p e a b r Ho Hv _ IH | p e a b r Ho Hv _ IH | p e a r Ho Hv _ IH | p e i e' Ho Hi He _ IH | p e i s pos Ho Hi Hp | p e i Ho Hi Hd]; intros v D; inversion D; subst; try congruence;
    repeat match goal with
    | H : _ \/ _ |- _ => destruct H
    end; try congruence;
    repeat match goal with
      | A : e_values ?e = _, B : e_values ?e = _ |- _ => rewrite A in B; injection B as <- <- <- || injection B as <- <-
      | A : e_id ?e = _, B : e_id ?e = _ |- _ => rewrite A in B; injection B as <-
      | A : nth_error ?l ?i = _, B : nth_error ?l ?i = _ |- _ => rewrite A in B; injection B as <-
      end; rewrite ?d3_add, ?d3_sub, ?d3_mul, ?dim_neg; try (rewrite (IH _ ltac:(eassumption)); rewrite ?orb_true_r; reflexivity); try (apply IH; assumption).
  - unfold row_of. cbn [n_ty n_id n_prime N_new]. rewrite Hp. reflexivity.
  - unfold row_of. cbn [n_ty n_id n_prime N_new]. exact Hd.
Qed.

(* a segment generated for the expressions ids, fixed for the n domain and laid out without conflicts *)
Record nseg (si : sinfo) (st : pstep) (im texp : list (nat * nat)) (td : nat -> bool) (tbl : list expr) (fl : nat) (ids : list nat) (t0 : nat)
    (c : context) (seg : segment) (R : bool * nat -> Prop) (m : mem) : Prop := mkNS {
  ns_dom : step_dom st = true;
  ns_gen : gens tbl fl ids (mkCtx t0 [] []) = Ok c;
  ns_seg : fix_prover_code si im texp true (linear_code c) (x_tmp c) = Ok seg;
  ns_wf : Forall wf_e tbl;
  ns_ids : Forall (fun i => R (false, i)) ids;
  (* what is computed refers to data the step reads and to expressions that are computed *)
  ns_refs : forall p i e, R (p, i) -> nth_error tbl i = Some e ->
    labs (lsrc si st m (kwrites si im texp c)) false p e /\ forall k, In k (exp_refs p e) -> R k;
  (* the kept expressions have columns of the sections the step writes, and these do not overlap *)
  ns_cols : forall p i ty k, R (p, i) -> kept im texp i = Some (ty, k) ->
    exists s pos dim, ncol si ty k = Some (s, pos, dim) /\ col_ok si st (s, pos, dim) /\ In s (step_out st);
  ns_disj : forall p q i j s col, R (p, i) -> R (q, j) -> covers si im texp i s col = true -> covers si im texp j s col = true -> i = j;
  (* no three-component value is written to a one-component column *)
  ns_typed : Forall (typed si m td) (sg_first seg);
  ns_nox : forall i e, R (true, i) -> nth_error tbl i = Some e -> labs (fun r => n_ty r <> Nx) false true e;
  (* a three-component column of a section that the step also reads is given three-component values *)
  ns_wide : forall p i s pos e, R (p, i) -> kcol si im texp i = Some (s, pos, 3) -> In s (step_in st) -> nth_error tbl i = Some e -> wide si m tbl p e }.

(* the parts of the memory a step of the n domain uses *)
Record nmem (si : sinfo) (st : pstep) (m : mem) : Prop := mkNM {
  nm_ok : mem_ok si st m;
  nm_base : forall s, In s (step_in st ++ step_out st) -> Forall vbase (m_sec m s);
  nm_pub : Forall wf (m_sec m Spublics);
  nm_cha : Forall wf (m_sec m Schallenge) }.

(* what the step leaves in memory *)
Definition nresult (si : sinfo) (st : pstep) (im texp : list (nat * nat)) (tbl : list expr) (c : context) (m p : mem) : Prop :=
  (forall s, ~ In s (step_out st) -> m_sec p s = m_sec m s) /\
  (forall s, In s (step_out st) -> length (m_sec p s) = 2 ^ si_nbits si * sec_width si s /\ Forall vbase (m_sec p s) /\
    forall g k, g < 2 ^ si_nbits si -> k < sec_width si s -> kwrites si im texp c s k = false ->
      nth_error (m_sec p s) (g * sec_width si s + k) = if in_dec sec_dec s (step_in st) then nth_error (m_sec m s) (g * sec_width si s + k) else Some e_ZERO) /\
  forall i, In (false, i) (x_calc c) -> forall g, g < 2 ^ si_nbits si -> exists e v, nth_error tbl i = Some e /\ den tbl (row_of si m g) false e v /\
    forall s pos dim, kcol si im texp i = Some (s, pos, dim) -> (dim = 1 -> d3 v = false) /\
      nth_error (m_sec p s) (g * sec_width si s + pos) = Some (e_from (k0 (val v))) /\
      (dim = 3 -> nth_error (m_sec p s) (g * sec_width si s + pos + 1) = Some (e_from (k1 (val v))) /\ nth_error (m_sec p s) (g * sec_width si s + pos + 2) = Some (e_from (k2 (val v)))).

Lemma nseg_chunked si st im texp td tbl fl ids t0 c seg R m blk per : nseg si st im texp td tbl fl ids t0 c seg R m -> nmem si st m ->
  compile_code si (sg_first seg) true false = Ok blk -> per <> 0 -> exists p, exps_chunked si st m seg per = Ok p /\ nresult si st im texp tbl c m p.
Proof.
  intros [Hd Hg Hs Hw Hi Hr Hc Hj Ht Hx Hq] [M B P C] Hb Hp.
  destruct (nstep_gen si st m im texp td tbl fl ids t0 c seg blk per (row_of si m) Hd M B P C Hg Hs Hb Hw R Hi Hr Hc Hj Ht) as [p [E1 [E2 [E3 E4]]]].
  - intros g r Hlt L. exact (row_read si st m _ g r Hd M B Hlt L).
  - intros g _. vm_compute. reflexivity.
  - exact Hx.
  - intros q i s pos e v g HR Hk Hin He _ D. exact (wide_d3 si m tbl g q e (Hq q i s pos e HR Hk Hin He) v D).
  - exact Hp.
  - exists p. split; [exact E1|]. split; [exact E2|]. split; [exact E3|]. intros i Hin g Hlt. destruct (E4 i Hin g Hlt) as [e [v [F1 [F2 F3]]]].
    exists e, v. split; [exact F1|]. split; [exact F2|]. intros s pos dim Hk. pose proof (F3 s pos dim) as F. 
    assert (HR : R (false, i)).
    { apply (dests_R si st m im texp tbl fl ids t0 c Hg R Hi Hr). apply (keys_dests tbl fl ids t0 c Hg). exact Hin. }
    assert (Hdim : dim = 1 \/ dim = 3).
    { unfold kcol in Hk. destruct (kept im texp i) as [[ty k]|] eqn:Ek; [|discriminate Hk]. destruct (Hc false i ty k HR Ek) as [s' [pos' [dim' [X1 [X2 _]]]]]. rewrite X1 in Hk.
      assert (dim' = dim) by congruence. subst dim'. exact (proj1 X2). }
    destruct (F Hk) as [F0 F'].
    split; [exact F0|]. split.
    + pose proof (F' 0 ltac:(destruct Hdim; lia)) as G. rewrite Nat.add_0_r in G. exact G.
    + intros ->. pose proof (F' 1 ltac:(lia)) as G1. pose proof (F' 2 ltac:(lia)) as G2. rewrite Nat.add_assoc in G1, G2. split; [exact G1 | exact G2].
Qed.
Theorem nseg_run si st im texp td tbl fl ids t0 c seg R m blk workers : nseg si st im texp td tbl fl ids t0 c seg R m -> nmem si st m ->
  compile_code si (sg_first seg) true false = Ok blk -> workers <> 0 -> exists p, calculate_exps_parallel si st m seg workers = Ok p /\ nresult si st im texp tbl c m p.
Proof.
  intros S M B W. unfold calculate_exps_parallel. assert (E : exists per, rows_per_thread workers (par_n si st) = Ok per).
  { unfold rows_per_thread. destruct (Nat.eqb_spec workers 0) as [X|_]; [contradiction|]. eexists. reflexivity. }
  destruct E as [per E]. pose proof (rows_per_thread_pos _ _ _ E) as Hp. rewrite E, StarkTop.bindE. exact (nseg_chunked _ _ _ _ _ _ _ _ _ _ _ _ _ _ _ S M B Hp).
Qed.
Lemma gens_requested tbl fl ids t0 c : gens tbl fl ids (mkCtx t0 [] []) = Ok c -> forall i, In i ids -> In (false, i) (x_calc c).
Proof.
  intros H i Hi. destruct (gens_adds tbl fl ids _ _ H) as [_ [_ F]]; [intros k [] |]. exact (proj1 (Forall_forall _ _) F i Hi).
Qed.
