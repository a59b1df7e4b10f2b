(* Proofs about InterpModel.v. *)
From Verif Require Import Base GlModel FrField F3gModel ListAux ProverModel CodegenModel CodegenProof InterpModel.
Open Scope nat_scope.
Open Scope res_scope.

(* ---------- direct execution on the prover's memory ---------- *)
Section Direct.
  Variables (si : sinfo) (d : dom) (i : nat).
  Let next := dom_next si d.
  Let modulas := dom_size si d.
  Definition read_ref (m : mem) (r : node) : res F3G := do o <- get_ref si r d next modulas; operand_value m o i.
  Definition direct_op (m : mem) (op : cop) (src : list node) : res F3G :=
    match op, src with
    | CAdd, a :: b :: _ => do x <- read_ref m a; do y <- read_ref m b; Ok (e_add x y)
    | CSub, a :: b :: _ => do x <- read_ref m a; do y <- read_ref m b; Ok (e_sub x y)
    | CMul, a :: b :: _ => do x <- read_ref m a; do y <- read_ref m b; Ok (e_mul x y)
    | CCopy, a :: _ => read_ref m a
    | _, _ => Panic
    end.
  Definition direct_step (m : mem) (c : instr) : res mem :=
    do v <- direct_op m (i_op c) (i_src c);
    do r <- dest_ref si (i_dest c) d next modulas;
    write_ref m r i v.

  Lemma compile_instr_ok c l : compile_instr si d next modulas c = Ok l -> forall m rest,
    block_eval m [] (l ++ rest) i = do m' <- direct_step m c; block_eval m' [] rest i.
  Proof.
    unfold compile_instr. intros H m rest. destruct c as [cop0 cdst csrc]. cbn [i_op i_src i_dest] in H.
    destruct (mapM _ csrc) as [src| | |] eqn:Es; try discriminate H. cbn [bind] in H.
    destruct (compile_op cop0 src) as [op| | |] eqn:Eo; try discriminate H. cbn [bind] in H.
    destruct (dest_ref si cdst d next modulas) as [r| | |] eqn:Ed; try discriminate H. cbn [bind] in H. injection H as <-.
    unfold direct_step. cbn [i_op i_src i_dest]. rewrite Ed. cbn [bind app].
    assert (Hr : forall a s o os, mapM (fun r => get_ref si r d next modulas) (a :: s) = Ok (o :: os) ->
              read_ref m a = operand_value m o i /\ mapM (fun r => get_ref si r d next modulas) s = Ok os).
    { intros a s o os H. cbn [mapM] in H. unfold read_ref. destruct (get_ref si a d next modulas) as [o'| | |]; try discriminate H.
      cbn [bind] in H. destruct (mapM _ s) as [os'| | |]; try discriminate H. cbn [bind] in H. injection H as -> ->.
      split; reflexivity. }
    assert (Hn : forall s o os, mapM (fun r => get_ref si r d next modulas) s = Ok (o :: os) -> exists a s', s = a :: s').
    { intros [|a s'] o os H; [discriminate H | eexists; eexists; reflexivity]. }
    destruct cop0; destruct src as [|o1 [|o2 os]]; try discriminate Eo; cbn [compile_op] in Eo; injection Eo as <-;
      destruct (Hn _ _ _ Es) as [a [s' ->]]; destruct (Hr _ _ _ _ Es) as [Ra Es'];
      try (destruct (Hn _ _ _ Es') as [b [s'' ->]]; destruct (Hr _ _ _ _ Es') as [Rb _]); cbn [direct_op block_eval];
      rewrite ?Ra, ?Rb; destruct (operand_value m o1 i) as [x| | |]; try reflexivity; cbn [bind];
      try (destruct (operand_value m o2 i) as [y| | |]; try reflexivity; cbn [bind]);
      match goal with |- context [write_ref ?m ?r ?i ?v] => destruct (write_ref m r i v); reflexivity end.
  Qed.

  Lemma compile_body_ok code : forall body, mapM (compile_instr si d next modulas) code = Ok body -> forall m rest,
    block_eval m [] (concat body ++ rest) i = do m' <- foldM direct_step code m; block_eval m' [] rest i.
  Proof.
    induction code as [|c code IH]; intros body H m rest; cbn [mapM] in H.
    - injection H as <-. reflexivity.
    - destruct (compile_instr si d next modulas c) as [l| | |] eqn:Ec; try discriminate H. cbn [bind] in H.
      destruct (mapM _ code) as [b| | |] eqn:Eb; try discriminate H. cbn [bind] in H. injection H as <-.
      cbn [concat]. rewrite <- app_assoc, (compile_instr_ok c l Ec). cbn [foldM].
      destruct (direct_step m c) as [m'| | |]; try reflexivity. cbn [bind]. now apply IH.
  Qed.
End Direct.

Theorem compile_correct si code d ret blk : compile_code si code d ret = Ok blk -> forall m i,
  block_eval m [] blk i =
  do m' <- foldM (direct_step si d i) code m;
  if ret then do v <- read_ref si d i m' (i_dest (last code (mkI CCopy (N_new Ntmp 0 None false) []))); Ok (v, m')
  else Ok (e_ZERO, m').
Proof.
  unfold compile_code. intros H m i.
  destruct (mapM _ code) as [body| | |] eqn:Eb; try discriminate H. cbn [bind] in H.
  destruct ret.
  - destruct (rev code) as [|c rc] eqn:Er; [discriminate H|].
    destruct (get_ref si (i_dest c) d (dom_next si d) (dom_size si d)) as [r| | |] eqn:Eg; try discriminate H.
    cbn [bind] in H. injection H as <-. rewrite (compile_body_ok si d i code body Eb).
    destruct (foldM (direct_step si d i) code m) as [m'| | |]; try reflexivity. cbn [bind].
    assert (Hc : code = rev rc ++ [c]) by (rewrite <- (rev_involutive code), Er; reflexivity).
    rewrite Hc, last_last. unfold read_ref. rewrite Eg. cbn [bind block_eval].
    destruct (operand_value m' r i) as [v| | |]; reflexivity.
  - injection H as <-. rewrite <- (app_nil_r (concat body)), (compile_body_ok si d i code body Eb). reflexivity.
Qed.

(* ---------- agreement with the verifier's execution ---------- *)
Definition leaf (r : node) : Prop := n_ty r <> Ntmp.
Lemma read_leaf_stable si d i m m' r : leaf r -> (forall s, s <> Stmp -> m_sec m' s = m_sec m s) ->
  m_xdiv m' = m_xdiv m -> m_xdivw m' = m_xdivw m -> m_zi m' = m_zi m ->
  (forall p, In p (si_map si) -> fst (fst p) <> Stmp) -> read_ref si d i m' r = read_ref si d i m r.
Proof.
  intros Hl Hs H1 H2 H3 Hp. unfold read_ref.
  assert (Hmap : forall id pr x, eval_map si id pr (dom_next si d) (dom_size si d) = Ok x -> operand_value m' (Refer x) i = operand_value m (Refer x) i).
  { intros id pr x He. unfold eval_map in He. destruct (vget (si_map si) id) as [[[s pos] dim]| | |] eqn:Ev; try discriminate He.
    cbn [bind] in He. destruct ((dim =? 1) || (dim =? 3)); [|discriminate He]. injection He as <-.
    apply vget_inv, nth_error_In, Hp in Ev. cbn [fst] in Ev.
    cbn [operand_value]. unfold get_value. cbn [r_sym r_three]. now rewrite (Hs s Ev). }
  unfold get_ref. destruct (n_ty r) eqn:Et; try reflexivity; try (exfalso; apply Hl, Et).
  - unfold cm_ref. destruct (vget _ (n_id r)) as [q| | |]; try reflexivity. cbn [bind rmap].
    destruct (eval_map si q (n_prime r) _ _) as [x| | |] eqn:E; try reflexivity. cbn [rmap bind]. now apply (Hmap q (n_prime r)).
  - destruct d; cbn [bind]; unfold cell; cbn [operand_value]; unfold get_value; cbn [r_sym r_three];
      rewrite Hs by discriminate; reflexivity.
  - destruct (number_ref (n_value r)); reflexivity.
  - cbn [bind]. unfold cell. cbn [operand_value]. unfold get_value. cbn [r_sym r_three]. now rewrite Hs by discriminate.
  - cbn [bind]. unfold cell. cbn [operand_value]. unfold get_value. cbn [r_sym r_three]. now rewrite Hs by discriminate.
  - cbn [bind]. unfold cell. cbn [operand_value]. unfold get_value. cbn [r_sym r_three]. now rewrite Hs by discriminate.
  - cbn [bind operand_value]. unfold get_value. cbn [r_sym]. now rewrite H1.
  - cbn [bind operand_value]. unfold get_value. cbn [r_sym]. now rewrite H2.
  - destruct d; cbn [bind]; unfold cell; cbn [operand_value]; unfold get_value; cbn [r_sym r_three];
      rewrite Hs by discriminate; reflexivity.
  - cbn [bind operand_value]. unfold get_value. cbn [r_sym]. now rewrite H3.
  - unfold tmpexp_ref. destruct d; [|reflexivity]. destruct (vget _ (n_id r)) as [q| | |]; try reflexivity. cbn [bind rmap].
    destruct (eval_map si q (n_prime r) _ _) as [x| | |] eqn:E; try reflexivity. cbn [rmap bind]. now apply (Hmap q (n_prime r)).
Qed.

Definition frame (m m' : mem) : Prop :=
  (forall s, s <> Stmp -> m_sec m' s = m_sec m s) /\ m_xdiv m' = m_xdiv m /\ m_xdivw m' = m_xdivw m /\ m_zi m' = m_zi m.
Lemma frame_refl m : frame m m.
Proof. repeat split; reflexivity. Qed.
Lemma frame_trans a b c : frame a b -> frame b c -> frame a c.
Proof.
  intros [A1 [A2 [A3 A4]]] [B1 [B2 [B3 B4]]]. split; [|repeat split; congruence].
  intros s Hs. rewrite B1 by exact Hs. apply A1, Hs.
Qed.
Lemma read_leaf_frame si d i m m' r : leaf r -> frame m m' -> (forall p, In p (si_map si) -> fst (fst p) <> Stmp) ->
  read_ref si d i m' r = read_ref si d i m r.
Proof. intros Hl [A [B [C D]]] Hp. now apply read_leaf_stable. Qed.

Lemma read_tmp si d i m r : n_ty r = Ntmp -> read_ref si d i m r = vget (m_sec m Stmp) (n_id r).
Proof.
  intros H. unfold read_ref, get_ref. rewrite H. cbn [bind]. unfold cell. cbn [operand_value]. unfold get_value. cbn [r_sym r_three].
  unfold get_i. cbn [r_off r_next r_mod r_size]. now rewrite Nat.mul_0_r, Nat.add_0_r.
Qed.
Lemma write_tmp si d i m r v : n_ty r = Ntmp -> n_id r < length (m_sec m Stmp) ->
  exists l m', nth_error l (n_id r) = Some v /\ (forall k, k <> n_id r -> nth_error l k = nth_error (m_sec m Stmp) k) /\
    length l = length (m_sec m Stmp) /\
    (do x <- dest_ref si r d (dom_next si d) (dom_size si d); write_ref m x i v) = Ok m' /\ m_sec m' Stmp = l /\ frame m m'.
Proof.
  intros H Hl. unfold dest_ref. rewrite H. cbn [bind]. unfold write_ref. cbn [r_sym].
  unfold get_i. cbn [r_off r_next r_mod r_size]. rewrite Nat.mul_0_r, Nat.add_0_r.
  replace (negb (d3 v) || sec_eqb Stmp Stmp) with true by (destruct (d3 v); reflexivity).
  destruct (vset_ok (m_sec m Stmp) (n_id r) v Hl) as [l [H1 [H2 [H3 H4]]]]. rewrite H1. cbn [bind].
  exists l. eexists. split; [exact H3|]. split; [exact H4|]. split; [exact H2|]. split; [reflexivity|].
  split; [reflexivity|]. split; [|repeat split; reflexivity].
  intros s Hs. cbn [m_set m_sec]. destruct s; cbn [sec_eqb]; try reflexivity. now destruct Hs.
Qed.

Lemma v_get_leaf x t t' r : leaf r -> v_get x t r = v_get x t' r.
Proof. unfold leaf, v_get. destruct (n_ty r); intros H; try reflexivity. now destruct H. Qed.

Section Agree.
  Variables (si : sinfo) (d : dom) (i : nat) (x : vctx) (m0 : mem).
  Hypothesis no_tmp : forall p, In p (si_map si) -> fst (fst p) <> Stmp.

  Definition same_value (r r' : node) : Prop :=
    (n_ty r = Ntmp /\ n_ty r' = Ntmp /\ n_id r = n_id r') \/
    (n_ty r <> Ntmp /\ n_ty r' <> Ntmp /\ exists v, read_ref si d i m0 r = Ok v /\ v_get x (fun _ => None) r' = Ok v).
  Definition same_instr (c c' : instr) : Prop :=
    i_op c = i_op c' /\ i_op c <> CMuladd /\
    n_ty (i_dest c) = Ntmp /\ n_ty (i_dest c') = Ntmp /\ n_id (i_dest c) = n_id (i_dest c') /\
    n_id (i_dest c) < length (m_sec m0 Stmp) /\ Forall2 same_value (i_src c) (i_src c').
  Definition tmps_ok (t : nat -> option F3G) (m : mem) : Prop :=
    forall k v, t k = Some v -> nth_error (m_sec m Stmp) k = Some v.

  Lemma same_read t m r r' v : frame m0 m -> tmps_ok t m -> same_value r r' -> v_get x t r' = Ok v -> read_ref si d i m r = Ok v.
  Proof.
    intros Hf Ht [[H1 [H2 H3]]|[H1 [H2 [w [H3 H4]]]]] Hv.
    - rewrite read_tmp by exact H1. unfold v_get in Hv. rewrite H2 in Hv. rewrite H3.
      destruct (t (n_id r')) as [u|] eqn:E; [|discriminate Hv]. injection Hv as ->. apply vget_some. now apply Ht.
    - rewrite (read_leaf_frame si d i m0 m r H1 Hf no_tmp), H3. rewrite (v_get_leaf x t (fun _ => None) r' H2), H4 in Hv. exact Hv.
  Qed.

  Lemma step_agree t m c c' s v : frame m0 m -> tmps_ok t m -> same_instr c c' ->
    mapM (v_get x t) (i_src c') = Ok s -> v_op (i_op c') s = Ok v -> direct_op si d i m (i_op c) (i_src c) = Ok v.
  Proof.
    intros Hf Ht [H1 [H2 [_ [_ [_ [_ H3]]]]]] Hs Hv. rewrite H1 in *.
    assert (Hmap : forall l l' s, Forall2 same_value l l' -> mapM (v_get x t) l' = Ok s -> Forall2 (fun r v => read_ref si d i m r = Ok v) l s).
    { clear -Hf Ht no_tmp. induction l as [|r l IH]; intros l' s HF Hs; inversion HF; subst; cbn [mapM] in Hs.
      - injection Hs as <-. constructor.
      - destruct (v_get x t y) as [u| | |] eqn:Eu; try discriminate Hs. cbn [bind] in Hs.
        destruct (mapM (v_get x t) l'0) as [us| | |] eqn:Eus; try discriminate Hs. cbn [bind] in Hs. injection Hs as <-.
        constructor; [eapply same_read; eassumption | eapply IH; eassumption]. }
    pose proof (Hmap _ _ _ H3 Hs) as HF. clear Hmap.
    destruct (i_op c'); [| | |now destruct H2|];
      destruct s as [|a s]; try discriminate Hv; inversion HF as [|ra ? ? ? Ra HF']; subst; cbn [direct_op v_op] in *;
      try (destruct s as [|b s]; try discriminate Hv; inversion HF' as [|rb ? ? ? Rb _]; subst);
      cbn [direct_op v_op] in *; rewrite ?Ra; cbn [bind]; rewrite ?Rb; cbn [bind]; exact Hv.
  Qed.

  Theorem run_agree code code' : Forall2 same_instr code code' -> forall t m t', frame m0 m -> tmps_ok t m ->
    length (m_sec m Stmp) = length (m_sec m0 Stmp) ->
    v_run x t code' = Ok t' -> exists m', foldM (direct_step si d i) code m = Ok m' /\ frame m0 m' /\ tmps_ok t' m'.
  Proof.
    induction 1 as [|c c' code code' Hc _ IH]; intros t m t' Hf Ht Hl Hr; cbn [v_run foldM] in *.
    - injection Hr as <-. exists m. split; [reflexivity|]. split; assumption.
    - destruct (mapM (v_get x t) (i_src c')) as [s| | |] eqn:Es; try discriminate Hr. cbn [bind] in Hr.
      destruct (v_op (i_op c') s) as [v| | |] eqn:Ev; try discriminate Hr. cbn [bind] in Hr.
      pose proof Hc as [_ [_ [D1 [D2 [D3 [D4 _]]]]]]. rewrite D2 in Hr.
      unfold direct_step at 1. rewrite (step_agree t m c c' s v Hf Ht Hc Es Ev). cbn [bind].
      destruct (write_tmp si d i m (i_dest c) v D1) as [l [m' [W1 [W2 [W3 [W4 [W5 W6]]]]]]]; [rewrite Hl; exact D4|].
      rewrite W4. cbn [bind]. apply (IH _ m' t' (frame_trans _ _ _ Hf W6)) in Hr; [exact Hr | |rewrite W5; congruence].
      intros k u Hk. rewrite W5. destruct (Nat.eqb_spec k (n_id (i_dest c'))) as [->|Hne].
      + injection Hk as <-. rewrite <- D3. exact W1.
      + rewrite W2 by congruence. now apply Ht.
  Qed.

  Theorem interp_agrees code code' blk v : Forall2 same_instr code code' -> compile_code si code d true = Ok blk ->
    execute_code x code' = Ok v -> exists m', block_eval m0 [] blk i = Ok (v, m').
  Proof.
    intros HF Hc He. rewrite (compile_correct si code d true blk Hc m0 i).
    unfold execute_code in He. destruct (rev code') as [|c' rc] eqn:Er; [discriminate He|].
    destruct (v_run x (fun _ => None) code') as [t| | |] eqn:Ev; try discriminate He. cbn [bind] in He.
    destruct (run_agree code code' HF (fun _ => None) m0 t (frame_refl _)) as [m' [A [B C]]]; [intros k u Hk; discriminate Hk | reflexivity | exact Ev|].
    rewrite A. cbn [bind].
    assert (Hl : code' = rev rc ++ [c']) by (rewrite <- (rev_involutive code'), Er; reflexivity).
    rewrite Hl in HF. apply Forall2_app_inv_r in HF as [l1 [l2 [_ [HF2 ->]]]].
    inversion HF2 as [|c ? ? ? Hcc HF3]; subst. inversion HF3; subst. rewrite last_last.
    destruct Hcc as [_ [_ [D1 [D2 [D3 _]]]]]. rewrite read_tmp by exact D1.
    unfold v_get in He. rewrite D2 in He. rewrite D3. destruct (t (n_id (i_dest c'))) as [u|] eqn:Eu; [|discriminate He].
    injection He as ->. rewrite (vget_some _ _ _ (C _ _ Eu)). cbn [bind]. eexists. reflexivity.
  Qed.
End Agree.

(* ---------- addressing ---------- *)
Definition col_row (si : sinfo) (d : dom) (i : nat) (prime : bool) : nat := (i + (if prime then dom_next si d else 0)) mod dom_size si d.

Lemma dom_size_pos si d : dom_size si d <> 0.
Proof. unfold dom_size. destruct d; apply Nat.pow_nonzero; lia. Qed.
Lemma three_row p l i : p_dim p = 3 -> three l (p_offset p + i * p_size p) = get_row p l i.
Proof. intros H. unfold get_row. rewrite H. reflexivity. Qed.
Lemma one_row p l i : p_dim p = 1 -> vget l (p_offset p + i * p_size p) = get_row p l i.
Proof. intros H. unfold get_row. rewrite H. reflexivity. Qed.

Theorem read_cm si (d : dom) i m r pid (s : sec) pos dim : n_ty r = Ncm -> nth_error (if d then si_cm_n si else si_cm_2ns si) (n_id r) = Some pid ->
  nth_error (si_map si) pid = Some (s, pos, dim) -> dim = 1 \/ dim = 3 ->
  read_ref si d i m r = get_row (mkPol (dom_size si d) pos (si_width si s) dim) (m_sec m s) (col_row si d i (n_prime r)).
Proof.
  intros Ht Hp Hm Hd. unfold read_ref, get_ref. rewrite Ht. unfold cm_ref. rewrite (vget_some _ _ _ Hp). cbn [bind].
  unfold eval_map. rewrite (vget_some _ _ _ Hm). cbn [bind].
  destruct Hd as [->| ->]; reflexivity.
Qed.
Theorem read_const si (d : dom) i m r : n_ty r = Nconst ->
  read_ref si d i m r = vget (m_sec m (if d then Sconst_n else Sconst_2ns)) (n_id r + col_row si d i (n_prime r) * si_nconst si).
Proof.
  intros Ht. unfold read_ref, get_ref. rewrite Ht. destruct d; reflexivity.
Qed.
(* the row lies in the domain and the cells in the row *)
Lemma col_row_val si d i prime :
  col_row si d i prime = (i + (if prime then (if d then 1 else 2 ^ (si_nbits_ext si - si_nbits si)) else 0)) mod 2 ^ (if d then si_nbits si else si_nbits_ext si).
Proof. destruct d; reflexivity. Qed.
Theorem row_in_domain si d i prime : col_row si d i prime < dom_size si d.
Proof. apply Nat.mod_upper_bound, dom_size_pos. Qed.

Lemma addr_inside w pos dim r n : pos + dim <= w -> r < n -> r * w <= pos + r * w /\ pos + r * w + dim <= (r + 1) * w /\ (r + 1) * w <= n * w.
Proof. intros H1 H2. repeat split; nia. Qed.

(* writing a value of the dimension of the column *)
Theorem write_cm si (d : dom) i m r pid (s : sec) pos dim v : n_ty r = Ncm -> nth_error (if d then si_cm_n si else si_cm_2ns si) (n_id r) = Some pid ->
  nth_error (si_map si) pid = Some (s, pos, dim) -> s <> Stmp -> dim = (if d3 v then 3 else 1) ->
  pos + dim <= si_width si s -> dom_size si d * si_width si s <= length (m_sec m s) ->
  let row := col_row si d i (n_prime r) in
  let p := mkPol (dom_size si d) pos (si_width si s) dim in
  exists x m', dest_ref si r d (dom_next si d) (dom_size si d) = Ok x /\ write_ref m x i v = Ok m' /\
    get_row p (m_sec m' s) row = Ok v /\
    (forall s', s' <> s -> m_sec m' s' = m_sec m s') /\ length (m_sec m' s) = length (m_sec m s) /\
    (forall a, a < pos + row * si_width si s \/ pos + row * si_width si s + dim <= a -> nth_error (m_sec m' s) a = nth_error (m_sec m s) a).
Proof.
  intros Ht Hp Hm Hs Hd Hw Hl row p. unfold dest_ref. rewrite Ht. unfold cm_ref. rewrite (vget_some _ _ _ Hp). cbn [bind].
  unfold eval_map. rewrite (vget_some _ _ _ Hm). cbn [bind].
  replace ((dim =? 1) || (dim =? 3)) with true by (rewrite Hd; destruct (d3 v); reflexivity).
  pose proof (row_in_domain si d i (n_prime r)) as Hr. fold row in Hr.
  destruct (addr_inside (si_width si s) pos dim row (dom_size si d) Hw Hr) as [_ [B C]].
  pose (a := pos + row * si_width si s). fold a in B |- *.
  assert (Hsec : sec_eqb s Stmp = false) by (destruct s; try reflexivity; now destruct Hs).
  assert (Hset : forall l s', m_sec (m_set m s l) s' = if sec_eqb s' s then l else m_sec m s') by reflexivity.
  assert (Hself : sec_eqb s s = true) by (destruct s; reflexivity).
  assert (Hoth : forall s', s' <> s -> sec_eqb s' s = false) by (intros s' H; destruct s, s'; try reflexivity; now destruct H).
  exists (mkR (RSec s) (dim =? 3) pos (if n_prime r then dom_next si d else 0) (dom_size si d) (si_width si s)).
  unfold write_ref. cbn [r_sym]. unfold get_i. cbn [r_off r_next r_mod r_size].
  change (pos + ((i + (if n_prime r then dom_next si d else 0)) mod dom_size si d) * si_width si s) with a.
  rewrite Hsec, orb_false_r. destruct (d3 v) eqn:Ev; cbn [negb]; subst dim.
  - destruct (vset_ok (m_sec m s) a (e_from (c0 v))) as [l1 [W1 [L1 [N1 O1]]]]; [lia|].
    destruct (vset_ok l1 (a + 1) (e_from (c1 v))) as [l2 [W2 [L2 [N2 O2]]]]; [lia|].
    destruct (vset_ok l2 (a + 2) (e_from (c2 v))) as [l3 [W3 [L3 [N3 O3]]]]; [lia|].
    rewrite W1. cbn [bind]. rewrite W2. cbn [bind]. rewrite W3. cbn [bind].
    eexists. split; [reflexivity|]. split; [reflexivity|].
    rewrite Hset, Hself. split; [|split; [|split]].
    + unfold get_row, p. cbn [p_dim p_offset p_size Nat.eqb]. fold a.
      rewrite (vget_some l3 a (e_from (c0 v))) by (rewrite O3, O2 by lia; exact N1). cbn [bind].
      rewrite (vget_some l3 (a + 1) (e_from (c1 v))) by (rewrite O3 by lia; exact N2). cbn [bind].
      rewrite (vget_some l3 (a + 2) (e_from (c2 v))) by exact N3. destruct v as [x0 x1 x2 dd]. cbn [d3] in Ev. rewrite Ev. reflexivity.
    + intros s' H. rewrite Hset, Hoth by exact H. reflexivity.
    + congruence.
    + intros b Hb. rewrite O3, O2, O1 by lia. reflexivity.
  - destruct (vset_ok (m_sec m s) a v) as [l1 [W1 [L1 [N1 O1]]]]; [lia|].
    rewrite W1. cbn [bind]. eexists. split; [reflexivity|]. split; [reflexivity|].
    rewrite Hset, Hself. split; [|split; [|split]].
    + unfold get_row, p. cbn [p_dim p_offset p_size Nat.eqb]. fold a. apply vget_some, N1.
    + intros s' H. rewrite Hset, Hoth by exact H. reflexivity.
    + exact L1.
    + intros b Hb. rewrite O1 by lia. reflexivity.
Qed.
