(* R1CS files: parsing an encoding, stability of the sorting, termination. *)
From Coq Require Import Sorted Permutation.
From Verif Require Import Base ListAux BinModel BinProof WtnsProof.
Open Scope Z_scope.
Open Scope res_scope.

(** ** sorting the terms *)
Definition by_wire (a b : Z * Z) : Prop := fst a <= fst b.
Definition on_wire (w : Z) (l : list (Z * Z)) : list (Z * Z) := filter (fun t => fst t =? w) l.
(* r holds the terms of l in the order of their wires, those of one wire in their old order *)
Definition sorted_terms (l r : list (Z * Z)) : Prop := StronglySorted by_wire r /\ forall w, on_wire w r = on_wire w l.

Lemma ins_forall : forall (P : Z * Z -> Prop) t l, P t -> Forall P l -> Forall P (ins_term t l).
Proof.
  induction l as [|u l IH]; intros Ht H; cbn [ins_term]; [repeat constructor; exact Ht|].
  inversion H; subst. destruct (_ <? _); repeat constructor; auto.
Qed.
Lemma ins_sorted : forall t l, StronglySorted by_wire l -> StronglySorted by_wire (ins_term t l).
Proof.
  induction l as [|u l IH]; intros H; cbn [ins_term]; [repeat constructor|].
  inversion H; subst. destruct (fst t <? fst u) eqn:E.
  - apply Z.ltb_lt in E. constructor; [exact H|]. constructor; [unfold by_wire; lia|].
    eapply Forall_impl; [|eassumption]. unfold by_wire. intros; lia.
  - apply Z.ltb_ge in E. constructor; [auto|]. apply ins_forall; [exact E|assumption].
Qed.
Lemma ins_wire : forall w t l, StronglySorted by_wire l -> on_wire w (ins_term t l) = on_wire w (l ++ [t]).
Proof.
  induction l as [|u l IH]; intros H; [reflexivity|]. cbn [ins_term app].
  inversion H; subst. destruct (fst t <? fst u) eqn:E.
  - apply Z.ltb_lt in E. cbn [on_wire filter].
    destruct (fst t =? w) eqn:Et.
    + apply Z.eqb_eq in Et. subst w.
      replace (fst u =? fst t) with false by (symmetry; apply Z.eqb_neq; lia).
      assert (N : filter (fun t0 => fst t0 =? fst t) l = []).
      { clear -E H3. induction H3 as [|x l Hx _ IH]; [reflexivity|]. cbn [filter]. unfold by_wire in Hx.
        replace (fst x =? fst t) with false by (symmetry; apply Z.eqb_neq; lia). exact IH. }
      unfold on_wire. rewrite filter_app, N. cbn [filter app]. rewrite Z.eqb_refl. reflexivity.
    + unfold on_wire. rewrite filter_app. cbn [filter app]. rewrite Et, app_nil_r. reflexivity.
  - cbn [on_wire filter]. fold (on_wire w (ins_term t l)). fold (on_wire w (l ++ [t])).
    rewrite IH by assumption. reflexivity.
Qed.
Lemma sort_snoc : forall l t, sort_terms (l ++ [t]) = ins_term t (sort_terms l).
Proof. intros. unfold sort_terms. rewrite fold_left_app. reflexivity. Qed.
Lemma sort_spec : forall l, sorted_terms l (sort_terms l).
Proof.
  induction l as [|t l IH] using rev_ind; [split; [constructor|reflexivity]|].
  rewrite sort_snoc. destruct IH as [S1 S2]. split; [apply ins_sorted; exact S1|].
  intros w. rewrite ins_wire by exact S1. unfold on_wire in *. rewrite !filter_app, S2. reflexivity.
Qed.
Lemma sorted_unique : forall l a b, sorted_terms l a -> sorted_terms l b -> a = b.
Proof.
  intros l a b [Sa Wa] [Sb Wb].
  assert (W : forall w, on_wire w a = on_wire w b) by (intros w; rewrite Wa, Wb; reflexivity).
  clear l Wa Wb. revert b Sb W. induction a as [|x a IH]; intros b Sb W.
  - destruct b as [|y b]; [reflexivity|]. specialize (W (fst y)). cbn [on_wire filter] in W. rewrite Z.eqb_refl in W. discriminate W.
  - destruct b as [|y b].
    + specialize (W (fst x)). cbn [on_wire filter] in W. rewrite Z.eqb_refl in W. discriminate W.
    + inversion Sa; inversion Sb; subst.
      assert (NE : forall (u : Z * Z) l, Forall (by_wire u) l -> forall w, w < fst u -> on_wire w (u :: l) = []).
      { intros u l F w Hw. unfold on_wire. cbn [filter]. replace (fst u =? w) with false by (symmetry; apply Z.eqb_neq; lia).
        induction F as [|v l Hv _ IHF]; [reflexivity|]. cbn [filter]. unfold by_wire in Hv.
        replace (fst v =? w) with false by (symmetry; apply Z.eqb_neq; lia). exact IHF. }
      assert (EQ : fst x = fst y).
      { destruct (Z.lt_trichotomy (fst x) (fst y)) as [L|[L|L]]; [|exact L|].
        - specialize (W (fst x)). rewrite (NE y b) in W by assumption. cbn [on_wire filter] in W. rewrite Z.eqb_refl in W. discriminate W.
        - specialize (W (fst y)). rewrite (NE x a) in W by assumption. cbn [on_wire filter] in W. rewrite Z.eqb_refl in W. discriminate W. }
      assert (XY : x = y).
      { specialize (W (fst x)). cbn [on_wire filter] in W. rewrite <- EQ, Z.eqb_refl in W.
        injection W as W1 _. exact W1. }
      subst y. f_equal. apply IH; [assumption|assumption|].
      intros w. specialize (W w). cbn [on_wire filter] in W. destruct (fst x =? w); [|exact W].
      injection W as W. exact W.
Qed.
Lemma sorted_perm : forall l r, sorted_terms l r -> Permutation l r.
Proof.
  intros l r H. rewrite (sorted_unique l r (sort_terms l) H (sort_spec l)). clear H r.
  induction l as [|t l IH] using rev_ind; [constructor|]. rewrite sort_snoc.
  assert (P : forall k, Permutation (t :: k) (ins_term t k)).
  { induction k as [|u k IHk]; [constructor; constructor|]. cbn [ins_term]. destruct (_ <? _); [reflexivity|].
    etransitivity; [apply perm_swap|]. constructor. exact IHk. }
  rewrite <- P. rewrite <- Permutation_cons_append. constructor. exact IH.
Qed.
Lemma sort_idem : forall l, sort_terms (sort_terms l) = sort_terms l.
Proof.
  intros l. apply (sorted_unique (sort_terms l)); [apply sort_spec|]. split; [apply sort_spec|reflexivity].
Qed.
Lemma sort_push : forall l t, sort_terms (sort_terms l ++ [t]) = sort_terms (l ++ [t]).
Proof. intros. rewrite !sort_snoc, sort_idem. reflexivity. Qed.

(** ** encodings *)
Section Enc.
Variable q : Z.
Variable rb : nat.
Hypothesis Hrb : (1 <= rb)%nat.
Hypothesis Hq : q <= 256 ^ Z.of_nat rb.

Definition enc_term (t : Z * Z) : list Z := le_bytes 4 (fst t) ++ le_bytes rb (snd t).
Definition enc_lc (l : list (Z * Z)) : list Z := le_bytes 4 (Z.of_nat (length l)) ++ concat (map enc_term l).
Definition enc_constraint (c : list (Z * Z) * list (Z * Z) * list (Z * Z)) : list Z :=
  let '(a, b, c) := c in enc_lc a ++ enc_lc b ++ enc_lc c.
Definition enc_gate (g : CustomGates) : list Z :=
  template_name g ++ [0] ++ le_bytes 4 (Z.of_nat (length (parameters g))) ++ concat (map (le_bytes rb) (parameters g)).
Definition enc_gates (gs : list CustomGates) : list Z := le_bytes 4 (Z.of_nat (length gs)) ++ concat (map enc_gate gs).
Definition enc_signal (s : Z) : list Z := le_bytes 4 (s mod 2 ^ 32) ++ le_bytes 4 (s / 2 ^ 32).
Definition enc_use (u : CustomGatesUses) : list Z :=
  le_bytes 4 (cu_id u) ++ le_bytes 4 (Z.of_nat (length (cu_signals u))) ++ concat (map enc_signal (cu_signals u)).
Definition enc_uses (us : list CustomGatesUses) : list Z := le_bytes 4 (Z.of_nat (length us)) ++ concat (map enc_use us).
Definition enc_header (h : Header) : list Z :=
  le_bytes 4 (field_size h) ++ prime_size h ++ le_bytes 4 (n_wires h) ++ le_bytes 4 (n_pub_out h) ++ le_bytes 4 (n_pub_in h)
  ++ le_bytes 4 (n_prv_in h) ++ le_bytes 8 (n_labels h) ++ le_bytes 4 (n_constraints h).
Definition enc_labels (wm : list Z) : list Z := concat (map (le_bytes 8) wm).

Definition lc_ok (l : list (Z * Z)) : Prop :=
  Z.of_nat (length l) < 2 ^ 32 /\ Forall (fun t => 0 <= fst t < 2 ^ 32 /\ 0 <= snd t < q) l.
Definition constraint_ok (c : list (Z * Z) * list (Z * Z) * list (Z * Z)) : Prop :=
  let '(a, b, c) := c in lc_ok a /\ lc_ok b /\ lc_ok c.
Definition gate_ok (g : CustomGates) : Prop :=
  Forall (fun b => b <> 0) (template_name g) /\ Z.of_nat (length (parameters g)) < 2 ^ 32 /\
  Forall (fun v => 0 <= v < q) (parameters g).
Definition use_ok (u : CustomGatesUses) : Prop :=
  0 <= cu_id u < 2 ^ 32 /\ Z.of_nat (length (cu_signals u)) < 2 ^ 32 /\ Forall (fun s => 0 <= s < 2 ^ 64) (cu_signals u).
Definition sorted_constraint (c d : list (Z * Z) * list (Z * Z) * list (Z * Z)) : Prop :=
  let '(a, b, c) := c in let '(a', b', c') := d in sorted_terms a a' /\ sorted_terms b b' /\ sorted_terms c c'.
Definition sort_constraint (c : list (Z * Z) * list (Z * Z) * list (Z * Z)) :=
  let '(a, b, c) := c in (sort_terms a, sort_terms b, sort_terms c).

Notation rbz := (Z.of_nat rb).

Lemma term_reads : reads (read_term q rbz) enc_term (fun t => 0 <= fst t < 2 ^ 32 /\ 0 <= snd t < q).
Proof.
  intros [w c] r [Hw Hc]. unfold enc_term, read_term. rewrite <- app_assoc.
  change (le_bytes 4 (fst (w, c))) with (u32 w). rewrite read_u32_app by exact Hw. cbn [bind].
  rewrite (read_field_app q rb) by assumption. reflexivity.
Qed.
Lemma enc_term_len : forall t, (1 <= length (enc_term t))%nat.
Proof. intros. unfold enc_term. rewrite app_length, le_bytes_len. lia. Qed.
Lemma terms_app : forall ts fuel pre r, Forall (fun t => 0 <= fst t < 2 ^ 32 /\ 0 <= snd t < q) ts -> (length ts <= fuel)%nat ->
  read_terms_fuel q rbz fuel (Z.of_nat (length ts)) (sort_terms pre) (concat (map enc_term ts) ++ r)
  = Ok (sort_terms (pre ++ ts), r).
Proof.
  induction ts as [|t ts IH]; intros fuel pre r HF Hf.
  - rewrite app_nil_r. destruct fuel; reflexivity.
  - destruct fuel as [|fuel]; [cbn [length] in Hf; lia|]. inversion HF; subst.
    cbn [map concat]. rewrite <- app_assoc. cbn [read_terms_fuel].
    replace (Z.of_nat (length (t :: ts)) <=? 0) with false by (symmetry; apply Z.leb_gt; cbn [length]; lia).
    rewrite term_reads by assumption. cbn [bind]. rewrite sort_push.
    replace (Z.of_nat (length (t :: ts)) - 1) with (Z.of_nat (length ts)) by (cbn [length]; lia).
    rewrite IH by (auto; cbn [length] in Hf; lia). rewrite <- app_assoc. reflexivity.
Qed.
Lemma terms_len : forall ts, (length ts <= length (concat (map enc_term ts)))%nat.
Proof. intros. apply (concat_enc_len enc_term (fun _ => True)); [intros; apply enc_term_len|]. apply Forall_forall. auto. Qed.
Lemma lc_app : forall l r, lc_ok l -> read_constraint_vec q rbz (enc_lc l ++ r) = Ok (sort_terms l, r).
Proof.
  intros l r [HL HF]. unfold read_constraint_vec, enc_lc. rewrite <- app_assoc.
  change (le_bytes 4 (Z.of_nat (length l))) with (u32 (Z.of_nat (length l))).
  rewrite read_u32_app by lia. cbn [bind]. change (@nil (Z * Z)) with (sort_terms []).
  rewrite terms_app; [reflexivity|exact HF|]. rewrite app_length. pose proof (terms_len l). lia.
Qed.
Lemma constraint_app : forall c r, constraint_ok c -> read_constraint q rbz (enc_constraint c ++ r) = Ok (sort_constraint c, r).
Proof.
  intros [[a b] c] r (Ha & Hb & Hc). unfold read_constraint, enc_constraint. rewrite <- !app_assoc.
  rewrite lc_app by exact Ha. cbn [bind]. rewrite lc_app by exact Hb. cbn [bind]. rewrite lc_app by exact Hc. reflexivity.
Qed.
Lemma enc_constraint_len : forall c, (1 <= length (enc_constraint c))%nat.
Proof. intros [[a b] c]. unfold enc_constraint, enc_lc. rewrite !app_length, !le_bytes_len. lia. Qed.
Lemma constraints_app : forall cs h r, Forall constraint_ok cs -> n_constraints h = Z.of_nat (length cs) ->
  read_constraints q rbz h (concat (map enc_constraint cs) ++ r) = Ok (map sort_constraint cs, r).
Proof.
  intros cs h r HF HN. unfold read_constraints. rewrite HN. unfold read_many.
  assert (HL : (length cs <= S (length (concat (map enc_constraint cs) ++ r)))%nat).
  { rewrite app_length. pose proof (concat_enc_len enc_constraint (fun _ => True) (fun c _ => enc_constraint_len c) cs
      ltac:(apply Forall_forall; auto)). lia. }
  revert HL. generalize (S (length (concat (map enc_constraint cs) ++ r))) as fuel. clear HN h.
  induction HF as [|c cs Hc _ IH]; intros fuel HL.
  - destruct fuel; reflexivity.
  - destruct fuel as [|fuel]; [cbn [length] in HL; lia|].
    cbn [map concat]. rewrite <- app_assoc. cbn [read_many_fuel].
    replace (Z.of_nat (length (c :: cs)) <=? 0) with false by (symmetry; apply Z.leb_gt; cbn [length]; lia).
    rewrite constraint_app by exact Hc. cbn [bind].
    replace (Z.of_nat (length (c :: cs)) - 1) with (Z.of_nat (length cs)) by (cbn [length]; lia).
    rewrite IH by (cbn [length] in HL; lia). reflexivity.
Qed.

Lemma field_reads : reads (read_field q rbz) (le_bytes rb) (fun v => 0 <= v < q).
Proof. intros v r H. apply read_field_app; assumption. Qed.
Lemma string_app : forall s r, Forall (fun b => b <> 0) s -> read_to_string (s ++ [0] ++ r) = Ok (s, r).
Proof.
  intros s r H. induction H as [|b s Hb _ IH]; [reflexivity|]. cbn [app read_to_string].
  replace (b =? 0) with false by (symmetry; apply Z.eqb_neq; exact Hb).
  change (s ++ 0 :: r) with (s ++ [0] ++ r). rewrite IH. reflexivity.
Qed.
Lemma gate_reads : reads (read_custom_gate q rbz) enc_gate gate_ok.
Proof.
  intros [name ps] r (Hn & Hl & HF). cbn [template_name parameters] in *.
  unfold enc_gate, read_custom_gate. cbn [template_name parameters]. rewrite <- !app_assoc.
  rewrite string_app by exact Hn. cbn [bind].
  change (le_bytes 4 (Z.of_nat (length ps))) with (u32 (Z.of_nat (length ps))). rewrite read_u32_app by lia. cbn [bind].
  rewrite (read_many_app (read_field q rbz) (le_bytes rb) (fun v => 0 <= v < q) field_reads);
    [reflexivity|intros; rewrite le_bytes_len; lia|exact HF|reflexivity].
Qed.
Lemma enc_gate_len : forall g, (1 <= length (enc_gate g))%nat.
Proof. intros. unfold enc_gate. rewrite !app_length, le_bytes_len. lia. Qed.
Lemma gates_app : forall gs r, Forall gate_ok gs -> Z.of_nat (length gs) < 2 ^ 32 ->
  read_custom_gates_list q rbz (enc_gates gs ++ r) = Ok (gs, r).
Proof.
  intros gs r HF HL. unfold read_custom_gates_list, enc_gates. rewrite <- app_assoc.
  change (le_bytes 4 (Z.of_nat (length gs))) with (u32 (Z.of_nat (length gs))). rewrite read_u32_app by lia. cbn [bind].
  apply (read_many_app (read_custom_gate q rbz) enc_gate gate_ok gate_reads); [intros; apply enc_gate_len|exact HF|reflexivity].
Qed.

End Enc.

Lemma u64_reads : reads read_u64 (le_bytes 8) (fun v => 0 <= v < 2 ^ 64).
Proof. intros v r H. exact (read_u64_app v r H). Qed.
Lemma u32_reads : reads read_u32 (le_bytes 4) (fun v => 0 <= v < 2 ^ 32).
Proof. intros v r H. exact (read_u32_app v r H). Qed.
Lemma map_app_ok : forall wm h r, Forall (fun v => 0 <= v < 2 ^ 64) wm -> n_wires h = Z.of_nat (length wm) ->
  hd_error wm = Some 0 ->
  read_map (Z.of_nat (length (enc_labels wm))) h (enc_labels wm ++ r) = Ok (wm, r).
Proof.
  intros wm h r HF HN H0. unfold read_map.
  assert (HL : length (enc_labels wm) = (8 * length wm)%nat).
  { unfold enc_labels. clear. induction wm; cbn [map concat length]; [reflexivity|]. rewrite app_length, le_bytes_len, IHwm. lia. }
  rewrite HL, HN. replace (Z.of_nat (8 * length wm) =? Z.of_nat (length wm) * 8) with true by (symmetry; apply Z.eqb_eq; lia).
  cbn [negb]. unfold enc_labels.
  rewrite (read_many_app read_u64 (le_bytes 8) (fun v => 0 <= v < 2 ^ 64) u64_reads); [|intros; rewrite le_bytes_len; lia|exact HF|reflexivity].
  cbn [bind]. destruct wm as [|w wm]; [discriminate H0|]. cbn [hd_error] in H0. injection H0 as ->. reflexivity.
Qed.


(* the words of a use *)
Definition signal_words (s : Z) : list Z := [s mod 2 ^ 32; s / 2 ^ 32].
Definition use_words (u : CustomGatesUses) : list Z :=
  cu_id u :: Z.of_nat (length (cu_signals u)) :: concat (map signal_words (cu_signals u)).
Lemma signals_bytes : forall ss, concat (map enc_signal ss) = concat (map (le_bytes 4) (concat (map signal_words ss))).
Proof.
  induction ss as [|s ss IH]; [reflexivity|]. cbn [map concat signal_words app]. rewrite IH.
  unfold enc_signal. rewrite <- app_assoc. reflexivity.
Qed.
Lemma use_bytes : forall u, enc_use u = concat (map (le_bytes 4) (use_words u)).
Proof. intros. unfold enc_use, use_words. cbn [map concat]. rewrite signals_bytes. reflexivity. Qed.
Lemma uses_bytes : forall us, concat (map enc_use us) = concat (map (le_bytes 4) (concat (map use_words us))).
Proof.
  induction us as [|u us IH]; [reflexivity|]. cbn [map concat]. rewrite IH, use_bytes, map_app, concat_app. reflexivity.
Qed.
Lemma signals_words : forall ss, Forall (fun s => 0 <= s < 2 ^ 64) ss -> Forall isword (concat (map signal_words ss)).
Proof.
  induction 1 as [|s ss Hs _ IH]; [constructor|]. cbn [map concat signal_words app].
  constructor; [apply Z.mod_pos_bound; lia|]. constructor; [|exact IH].
  split; [apply Z.div_pos; lia|apply Z.div_lt_upper_bound; lia].
Qed.
Lemma uses_words : forall us, Forall use_ok us -> Forall isword (concat (map use_words us)).
Proof.
  induction 1 as [|u us (H1 & H2 & H3) _ IH]; [constructor|]. cbn [map concat]. apply Forall_app. split; [|exact IH].
  constructor; [exact H1|]. constructor; [unfold isword; lia|]. apply signals_words. exact H3.
Qed.
Lemma signals_take : forall ss r, Forall (fun s => 0 <= s < 2 ^ 64) ss ->
  take_signals (length ss) (concat (map signal_words ss) ++ r) = Ok (ss, r).
Proof.
  intros ss r H. induction H as [|s ss Hs _ IH]; [reflexivity|].
  cbn [map concat signal_words app length take_signals]. rewrite IH. cbn [bind].
  pose proof (Z.div_mod s (2 ^ 32) ltac:(lia)). do 3 f_equal. change 0x100000000 with (2 ^ 32). lia.
Qed.
Lemma signals_wlen : forall ss, length (concat (map signal_words ss)) = (2 * length ss)%nat.
Proof. induction ss; cbn [map concat signal_words app length]; [reflexivity|]. rewrite IHss. lia. Qed.
Lemma uses_take : forall us fuel, Forall use_ok us -> (length us <= fuel)%nat ->
  take_uses fuel (Z.of_nat (length us)) (concat (map use_words us)) = Ok us.
Proof.
  intros us fuel H. revert fuel. induction H as [|[id ss] us (H1 & H2 & H3) _ IH]; intros fuel Hf.
  - destruct fuel; reflexivity.
  - destruct fuel as [|fuel]; [cbn [length] in Hf; lia|]. cbn [cu_id cu_signals] in *.
    cbn [map concat use_words cu_id cu_signals app take_uses].
    replace (Z.of_nat (length (mkCU id ss :: us)) <=? 0) with false by (symmetry; apply Z.leb_gt; cbn [length]; lia).
    replace (Z.of_nat (length (concat (map signal_words ss) ++ concat (map use_words us))) <? Z.of_nat (length ss)) with false
      by (symmetry; apply Z.ltb_ge; rewrite app_length, signals_wlen; lia).
    rewrite Nat2Z.id, signals_take by exact H3. cbn [bind].
    replace (Z.of_nat (length (mkCU id ss :: us)) - 1) with (Z.of_nat (length us)) by (cbn [length]; lia).
    rewrite IH by (cbn [length] in Hf; lia). reflexivity.
Qed.
Lemma words_blen : forall ws, length (concat (map (le_bytes 4) ws)) = (4 * length ws)%nat.
Proof. induction ws; cbn [map concat length]; [reflexivity|]. rewrite app_length, le_bytes_len, IHws. lia. Qed.
Lemma uses_len : forall us, (length us <= length (concat (map use_words us)))%nat.
Proof. induction us; cbn [map concat use_words length app]; [lia|]. rewrite app_length. lia. Qed.
Lemma uses_app : forall us r, Forall use_ok us -> Z.of_nat (length us) < 2 ^ 32 ->
  read_custom_gates_uses_list (Z.of_nat (length (enc_uses us))) (enc_uses us ++ r) = Ok us.
Proof.
  intros us r HF HL. unfold read_custom_gates_uses_list, enc_uses. rewrite uses_bytes.
  set (ws := concat (map use_words us)).
  assert (HW : le_bytes 4 (Z.of_nat (length us)) ++ concat (map (le_bytes 4) ws)
               = concat (map (le_bytes 4) (Z.of_nat (length us) :: ws))) by reflexivity.
  rewrite HW, words_blen.
  replace (Z.of_nat (4 * length (Z.of_nat (length us) :: ws)) / 4) with (Z.of_nat (length (Z.of_nat (length us) :: ws))).
  2:{ rewrite Nat2Z.inj_mul, Z.mul_comm, Z.div_mul by lia. reflexivity. }
  rewrite (read_many_app read_u32 (le_bytes 4) (fun v => 0 <= v < 2 ^ 32) u32_reads);
    [|intros; rewrite le_bytes_len; lia| |reflexivity].
  2:{ constructor; [lia|]. apply uses_words. exact HF. }
  cbn [bind]. apply uses_take; [exact HF|]. pose proof (uses_len us). subst ws. lia.
Qed.

Definition header_ok (h : Header) : Prop :=
  0 <= field_size h < 2 ^ 32 /\ Z.of_nat (length (prime_size h)) = field_size h /\ 0 <= n_wires h < 2 ^ 32 /\
  0 <= n_pub_out h < 2 ^ 32 /\ 0 <= n_pub_in h < 2 ^ 32 /\ 0 <= n_prv_in h < 2 ^ 32 /\ 0 <= n_labels h < 2 ^ 64 /\
  0 <= n_constraints h < 2 ^ 32.
Lemma enc_header_len : forall h, header_ok h -> Z.of_nat (length (enc_header h)) = 32 + field_size h.
Proof. intros h (_ & H & _). unfold enc_header. rewrite !app_length, !le_bytes_len. lia. Qed.
Lemma header_app : forall h r, header_ok h ->
  read_header (32 + field_size h) (enc_header h ++ r)
  = Ok (mkHeader (field_size h) (prime_size h) (n_wires h) (n_pub_out h) (n_pub_in h) (n_prv_in h) (n_labels h) (n_constraints h) false, r).
Proof.
  intros h r (H1 & H2 & H3 & H4 & H5 & H6 & H7 & H8). unfold read_header, enc_header. rewrite <- !app_assoc.
  change (le_bytes 4 (field_size h)) with (u32 (field_size h)). rewrite read_u32_app by exact H1. cbn [bind].
  rewrite read_exact_app by exact H2. cbn [bind]. rewrite Z.eqb_refl. cbn [negb].
  change (le_bytes 4 (n_wires h)) with (u32 (n_wires h)). rewrite read_u32_app by assumption. cbn [bind].
  change (le_bytes 4 (n_pub_out h)) with (u32 (n_pub_out h)). rewrite read_u32_app by assumption. cbn [bind].
  change (le_bytes 4 (n_pub_in h)) with (u32 (n_pub_in h)). rewrite read_u32_app by assumption. cbn [bind].
  change (le_bytes 4 (n_prv_in h)) with (u32 (n_prv_in h)). rewrite read_u32_app by assumption. cbn [bind].
  change (le_bytes 8 (n_labels h)) with (u64 (n_labels h)). rewrite read_u64_app by assumption. cbn [bind].
  change (le_bytes 4 (n_constraints h)) with (u32 (n_constraints h)). rewrite read_u32_app by assumption. reflexivity.
Qed.

(** ** the section table *)
Definition enc_section (s : Z * list Z) : list Z := le_bytes 4 (fst s) ++ le_bytes 8 (Z.of_nat (length (snd s))) ++ snd s.
(* the content of the last section of a type *)
Fixpoint last_section (t : Z) (secs : list (Z * list Z)) : option (list Z) :=
  match secs with
  | [] => None
  | (t', c) :: r => match last_section t r with Some x => Some x | None => if t' =? t then Some c else None end
  end.
Lemma last_section_snoc : forall t secs t' c,
  last_section t (secs ++ [(t', c)]) = if t' =? t then Some c else last_section t secs.
Proof.
  induction secs as [|[u d] secs IH]; intros t' c; cbn [app last_section].
  - destruct (t' =? t); reflexivity.
  - rewrite IH. destruct (t' =? t); reflexivity.
Qed.
Lemma sec_get_insert : forall t t' v m, sec_get t (sec_insert t' v m) = if t' =? t then Some v else sec_get t m.
Proof.
  intros. unfold sec_get, sec_insert. cbn [find fst]. destruct (t' =? t) eqn:E; [reflexivity|].
  replace (find (fun e => fst e =? t) (filter (fun e => negb (fst e =? t')) m)) with (find (fun e => fst e =? t) m); [reflexivity|].
  induction m as [|[u w] m IH]; [reflexivity|]. cbn [find filter fst]. destruct (u =? t) eqn:E1.
  - replace (u =? t') with false; [cbn [negb find fst]; rewrite E1; reflexivity|].
    symmetry. apply Z.eqb_neq. apply Z.eqb_eq in E1. apply Z.eqb_neq in E. lia.
  - rewrite IH. destruct (negb (u =? t')); [cbn [find fst]; rewrite E1; reflexivity|reflexivity].
Qed.
(* the table describes the sections *)
Definition table_ok (file : list Z) (secs : list (Z * list Z)) (m : list (Z * (Z * Z))) : Prop :=
  forall t, match last_section t secs with
            | Some c => exists off r, sec_get t m = Some (off, Z.of_nat (length c)) /\ at_pos file off = c ++ r
            | None => sec_get t m = None
            end.
Lemma at_pos_app : forall p s, at_pos (p ++ s) (Z.of_nat (length p)) = s.
Proof. intros. unfold at_pos. rewrite Nat2Z.id. apply drop_app. reflexivity. Qed.
Lemma table_read : forall secs pre done rest m file,
  file = pre ++ concat (map enc_section secs) ++ rest ->
  Z.of_nat (length file) < 2 ^ 63 -> Forall (fun s => 0 <= fst s < 2 ^ 32) secs ->
  table_ok file done m ->
  exists m', read_table (length secs) file (Z.of_nat (length pre)) m = Ok m' /\ table_ok file (done ++ secs) m'.
Proof.
  induction secs as [|[t c] secs IH]; intros pre done rest m file EF HL HF HT.
  - exists m. rewrite app_nil_r. split; [reflexivity|exact HT].
  - inversion HF; subst. cbn [fst] in *.
    set (file := pre ++ concat (map enc_section ((t, c) :: secs)) ++ rest) in *.
    cbn [length read_table].
    assert (EP : at_pos file (Z.of_nat (length pre)) = le_bytes 4 t ++ le_bytes 8 (Z.of_nat (length c)) ++ c ++ concat (map enc_section secs) ++ rest).
    { unfold file. rewrite at_pos_app. cbn [map concat]. unfold enc_section at 1. cbn [fst snd]. rewrite <- !app_assoc. reflexivity. }
    assert (LF : (length pre + 12 + length c <= length file)%nat).
    { unfold file. cbn [map concat]. unfold enc_section at 1. cbn [fst snd]. rewrite !app_length, !le_bytes_len. lia. }
    rewrite EP. change (le_bytes 4 t) with (u32 t). rewrite read_u32_app by assumption. cbn [bind].
    change (le_bytes 8 (Z.of_nat (length c))) with (u64 (Z.of_nat (length c))). rewrite read_u64_app by lia. cbn [bind].
    unfold as_i64. replace (Z.of_nat (length c) <? 2 ^ 63) with true by (symmetry; apply Z.ltb_lt; lia).
    unfold seek_to.
    replace ((0 <=? Z.of_nat (length pre) + 12 + Z.of_nat (length c)) && (Z.of_nat (length pre) + 12 + Z.of_nat (length c) <? 2 ^ 63)) with true
      by (symmetry; apply andb_true_iff; split; [apply Z.leb_le|apply Z.ltb_lt]; lia).
    cbn [bind].
    set (pre' := pre ++ enc_section (t, c)).
    assert (LP : Z.of_nat (length pre') = Z.of_nat (length pre) + 12 + Z.of_nat (length c)).
    { unfold pre', enc_section. cbn [fst snd]. rewrite !app_length, !le_bytes_len. lia. }
    rewrite <- LP.
    assert (EF' : file = pre' ++ concat (map enc_section secs) ++ rest).
    { unfold file, pre'. cbn [map concat]. rewrite <- !app_assoc. reflexivity. }
    destruct (IH pre' (done ++ [(t, c)]) rest (sec_insert t (Z.of_nat (length pre) + 12, Z.of_nat (length c)) m) file EF' HL ltac:(assumption)) as (m' & E & T).
    + intros u. rewrite last_section_snoc, sec_get_insert. destruct (t =? u); [|apply HT].
      exists (Z.of_nat (length pre) + 12), (concat (map enc_section secs) ++ rest). split; [reflexivity|].
      replace (Z.of_nat (length pre) + 12) with (Z.of_nat (length (pre ++ le_bytes 4 t ++ le_bytes 8 (Z.of_nat (length c)))))
        by (rewrite !app_length, !le_bytes_len; lia).
      unfold file. cbn [map concat]. unfold enc_section at 1. cbn [fst snd].
      replace (pre ++ ((le_bytes 4 t ++ le_bytes 8 (Z.of_nat (length c)) ++ c) ++ concat (map enc_section secs)) ++ rest)
        with ((pre ++ le_bytes 4 t ++ le_bytes 8 (Z.of_nat (length c))) ++ c ++ concat (map enc_section secs) ++ rest)
        by (rewrite <- !app_assoc; reflexivity).
      apply at_pos_app.
    + exists m'. split; [exact E|]. rewrite <- app_assoc in T. exact T.
Qed.

Lemma bytes_eqb_eq : forall a b, bytes_eqb a b = true <-> a = b.
Proof.
  intros a b. unfold bytes_eqb. split.
  - intros H. apply andb_true_iff in H. destruct H as [H1 H2]. apply Nat.eqb_eq in H1. apply forallb_eq; assumption.
  - intros ->. rewrite Nat.eqb_refl, forallb_refl. reflexivity.
Qed.

(** ** whole files *)
Definition r1cs_file (secs : list (Z * list Z)) (trailing : list Z) : list Z :=
  [114; 49; 99; 115] ++ le_bytes 4 1 ++ le_bytes 4 (Z.of_nat (length secs)) ++ concat (map enc_section secs) ++ trailing.

(* the primes the reader knows *)
Definition known_prime (h : Header) : Prop :=
  (field_size h = 32 /\ (prime_size h = le_bytes 32 bn_prime \/ prime_size h = le_bytes 32 bls_prime)) \/
  (field_size h = 8 /\ prime_size h = le_bytes 8 gl_prime).

Definition is_some {A} (o : option A) : bool := match o with Some _ => true | None => false end.
Definition opt_list {A} (o : option (list A)) : list A := match o with Some l => l | None => [] end.
Definition with_gates (h : Header) (b : bool) : Header :=
  mkHeader (field_size h) (prime_size h) (n_wires h) (n_pub_out h) (n_pub_in h) (n_prv_in h) (n_labels h) (n_constraints h) b.

Lemma opt_get : forall {A} (enc : list A -> list Z) t file secs m (o : option (list A)), table_ok file secs m ->
  last_section t secs = option_map enc o ->
  match o with
  | Some l => exists off r, sec_get t m = Some (off, Z.of_nat (length (enc l))) /\ at_pos file off = enc l ++ r
  | None => sec_get t m = None
  end.
Proof. intros A enc t file secs m o HT HO. specialize (HT t). rewrite HO in HT. destruct o; exact HT. Qed.

Lemma parse_file : forall q rb secs trailing h cs wm gates uses,
  (1 <= rb)%nat -> q <= 256 ^ Z.of_nat rb ->
  Z.of_nat (length (r1cs_file secs trailing)) < 2 ^ 63 -> Z.of_nat (length secs) < 2 ^ 32 ->
  Forall (fun s => 0 <= fst s < 2 ^ 32) secs ->
  header_ok h -> known_prime h ->
  last_section 1 secs = Some (enc_header h) ->
  last_section 2 secs = Some (concat (map (enc_constraint rb) cs)) ->
  last_section 3 secs = Some (enc_labels wm) ->
  last_section 4 secs = option_map (enc_gates rb) gates ->
  last_section 5 secs = option_map enc_uses uses ->
  Forall (constraint_ok q) cs -> n_constraints h = Z.of_nat (length cs) ->
  Forall (fun v => 0 <= v < 2 ^ 64) wm -> n_wires h = Z.of_nat (length wm) -> hd_error wm = Some 0 ->
  Forall (gate_ok q) (opt_list gates) -> Z.of_nat (length (opt_list gates)) < 2 ^ 32 ->
  Forall use_ok (opt_list uses) -> Z.of_nat (length (opt_list uses)) < 2 ^ 32 ->
  from_reader q (Z.of_nat rb) (field_size h) (r1cs_file secs trailing)
  = Ok (mkFile 1 (with_gates h (is_some uses && is_some gates)) (map sort_constraint cs) wm (opt_list gates) (opt_list uses)).
Proof.
  intros q rb secs trailing h cs wm gates uses Hrb Hq HL HS HF Hh HP S1 S2 S3 S4 S5 HC HNC HM HNW H0 HG HGL HU HUL.
  set (file := r1cs_file secs trailing) in *.
  assert (EF : file = ([114; 49; 99; 115] ++ le_bytes 4 1 ++ le_bytes 4 (Z.of_nat (length secs))) ++ concat (map enc_section secs) ++ trailing).
  { unfold file, r1cs_file. rewrite <- !app_assoc. reflexivity. }
  destruct (table_read secs _ [] trailing [] file EF HL HF) as (m & ET & HT).
  { intros t. reflexivity. }
  cbn [app] in HT. unfold from_reader.
  assert (R0 : read_exact 4 file = Ok ([114; 49; 99; 115], le_bytes 4 1 ++ le_bytes 4 (Z.of_nat (length secs)) ++ concat (map enc_section secs) ++ trailing)).
  { unfold file, r1cs_file. apply read_exact_app. reflexivity. }
  rewrite R0. cbn [bind]. change (bytes_eqb [114; 49; 99; 115] [114; 49; 99; 115]) with true. cbn [negb].
  change (le_bytes 4 1) with (u32 1). rewrite read_u32_app by lia. cbn [bind]. change (1 =? 1) with true. cbn [negb].
  change (le_bytes 4 (Z.of_nat (length secs))) with (u32 (Z.of_nat (length secs))). rewrite read_u32_app by lia. cbn [bind].
  rewrite Nat2Z.id.
  assert (LP : Z.of_nat (length ([114; 49; 99; 115] ++ le_bytes 4 1 ++ le_bytes 4 (Z.of_nat (length secs)))) = 12)
    by (rewrite !app_length, !le_bytes_len; reflexivity).
  rewrite LP in ET. rewrite ET. cbn [bind].
  unfold sec_unwrap, HEADER_TYPE, CONSTRAINT_TYPE, WIRE2LABEL_TYPE.
  pose proof (HT 1) as T1. rewrite S1 in T1. destruct T1 as (o1 & r1 & G1 & A1). rewrite G1. cbn [bind].
  rewrite A1, enc_header_len by exact Hh. rewrite header_app by exact Hh. cbn [bind].
  cbn [field_size prime_size n_wires n_pub_out n_pub_in n_prv_in n_labels n_constraints].
  pose proof (opt_get (enc_gates rb) 4 file secs m gates HT S4) as T4.
  pose proof (opt_get enc_uses 5 file secs m uses HT S5) as T5.
  assert (HU5 : sec_has CUSTOM_GATES_USE m = is_some uses).
  { unfold sec_has, CUSTOM_GATES_USE. destruct uses; [destruct T5 as (o & r & -> & _); reflexivity|rewrite T5; reflexivity]. }
  assert (HG4 : sec_has CUSTOM_GATES_LIST m = is_some gates).
  { unfold sec_has, CUSTOM_GATES_LIST. destruct gates; [destruct T4 as (o & r & -> & _); reflexivity|rewrite T4; reflexivity]. }
  rewrite HU5, HG4. fold (with_gates h (is_some uses && is_some gates)).
  replace (check_header (field_size h) (with_gates h (is_some uses && is_some gates))) with true.
  2:{ symmetry. unfold check_header, with_gates. cbn [field_size prime_size]. rewrite Z.eqb_refl, andb_true_r.
      destruct HP as [[-> HP]|[-> ->]].
      - change (32 =? 32) with true. cbn [orb andb]. destruct HP as [-> | ->].
        + rewrite (proj2 (bytes_eqb_eq _ _) eq_refl). reflexivity.
        + rewrite (proj2 (bytes_eqb_eq (le_bytes 32 bls_prime) _) eq_refl). rewrite orb_true_r. reflexivity.
      - change (8 =? 8) with true. rewrite orb_true_r. cbn [andb].
        rewrite (proj2 (bytes_eqb_eq _ _) eq_refl). rewrite orb_true_r. reflexivity. }
  cbn [negb].
  pose proof (HT 2) as T2. rewrite S2 in T2. destruct T2 as (o2 & r2 & G2 & A2). rewrite G2. cbn [bind].
  rewrite A2. rewrite (constraints_app q rb Hrb Hq cs) by (try exact HC; exact HNC). cbn [bind].
  pose proof (HT 3) as T3. rewrite S3 in T3. destruct T3 as (o3 & r3 & G3 & A3). rewrite G3. cbn [bind].
  rewrite A3. rewrite map_app_ok by (try exact HM; try exact HNW; exact H0). cbn [bind].
  unfold CUSTOM_GATES_LIST, CUSTOM_GATES_USE.
  assert (EG : match sec_get 4 m with
               | Some (off, _) => do (g, _) <- read_custom_gates_list q (Z.of_nat rb) (at_pos file off); Ok g
               | None => Ok [] end = Ok (opt_list gates)).
  { destruct gates as [gs|]; [|rewrite T4; reflexivity]. destruct T4 as (o4 & r4 & -> & A4).
    rewrite A4, (gates_app q rb Hrb Hq gs) by assumption. reflexivity. }
  rewrite EG. cbn [bind].
  assert (EU : match sec_get 5 m with
               | Some (off, size) => read_custom_gates_uses_list size (at_pos file off)
               | None => Ok [] end = Ok (opt_list uses)).
  { destruct uses as [us|]; [|rewrite T5; reflexivity]. destruct T5 as (o5 & r5 & -> & A5).
    rewrite A5. apply uses_app; assumption. }
  rewrite EU. reflexivity.
Qed.

(** ** termination *)
Lemma nohang_ok {A} (a : A) : no_hang (Ok a).
Proof. intro K; discriminate K. Qed.
Lemma nohang_err {A} : no_hang (@Err A).
Proof. intro K; discriminate K. Qed.
Lemma nohang_panic {A} : no_hang (@Panic A).
Proof. intro K; discriminate K. Qed.
Lemma nohang_bind {A B} (r : res A) (f : A -> res B) : no_hang r -> (forall a, r = Ok a -> no_hang (f a)) -> no_hang (bind r f).
Proof.
  intros Hr Hf. destruct r; cbn [bind]; [apply Hf; reflexivity|apply nohang_err|apply nohang_panic|exact (fun _ => Hr eq_refl)].
Qed.
Lemma nohang_oe {A} (r : res A) : ok_or_err r -> no_hang r.
Proof. intros [[a ->]| ->]; [apply nohang_ok|apply nohang_err]. Qed.
Lemma re_nh : forall n l, no_hang (read_exact n l).
Proof. intros. unfold read_exact. destruct (_ <=? _); [apply nohang_ok|apply nohang_err]. Qed.
Lemma u32_nh : forall l, no_hang (read_u32 l).
Proof. intros. destruct (read_u32_cases l) as [(v & r & ->)| ->]; [apply nohang_ok|apply nohang_err]. Qed.
Lemma u64_nh : forall l, no_hang (read_u64 l).
Proof. intros. destruct (read_u64_cases l) as [(v & r & ->)| ->]; [apply nohang_ok|apply nohang_err]. Qed.

Section Term.
Variables q rb : Z.
Hypothesis Hrb : 1 <= rb.
Lemma term_shrinks : shrinks (read_term q rb).
Proof.
  intros l a r H. unfold read_term in H. destruct (read_u32 l) as [[w l1]| | |] eqn:E1; try discriminate H. cbn [bind] in H.
  destruct (read_field q rb l1) as [[c l2]| | |] eqn:E2; try discriminate H. cbn [bind] in H.
  assert (l2 = r) by congruence. subst. apply read_u32_shrinks in E1. apply read_field_shrinks in E2; [lia|exact Hrb].
Qed.
Lemma term_nh : forall l, no_hang (read_term q rb l).
Proof.
  intros. unfold read_term. apply nohang_bind; [apply u32_nh|]. intros [w l1] _.
  apply nohang_bind; [apply nohang_oe, read_field_oe|]. intros [c l2] _. apply nohang_ok.
Qed.
Lemma terms_shrinks : forall fuel n vec l v r, read_terms_fuel q rb fuel n vec l = Ok (v, r) -> (length r <= length l)%nat.
Proof.
  induction fuel as [|fuel IH]; intros n vec l v r H; cbn [read_terms_fuel] in H; destruct (n <=? 0).
  - assert (l = r) by congruence. subst. lia.
  - discriminate H.
  - assert (l = r) by congruence. subst. lia.
  - destruct (read_term q rb l) as [[t l1]| | |] eqn:E; try discriminate H. cbn [bind] in H.
    apply term_shrinks in E. apply IH in H. lia.
Qed.
Lemma terms_nh : forall fuel n vec l, (length l < fuel)%nat -> no_hang (read_terms_fuel q rb fuel n vec l).
Proof.
  induction fuel as [|fuel IH]; intros n vec l H; [lia|]. cbn [read_terms_fuel]. destruct (n <=? 0); [apply nohang_ok|].
  apply nohang_bind; [apply term_nh|]. intros [t l1] E. apply term_shrinks in E. apply IH. lia.
Qed.
Lemma vec_nh : forall l, no_hang (read_constraint_vec q rb l).
Proof. intros. unfold read_constraint_vec. apply nohang_bind; [apply u32_nh|]. intros [n l1] _. apply terms_nh. lia. Qed.
Lemma vec_shrinks : shrinks (read_constraint_vec q rb).
Proof.
  intros l a r H. unfold read_constraint_vec in H. destruct (read_u32 l) as [[w l1]| | |] eqn:E1; try discriminate H. cbn [bind] in H.
  apply read_u32_shrinks in E1. apply terms_shrinks in H. lia.
Qed.
Lemma constraint_nh : forall l, no_hang (read_constraint q rb l).
Proof.
  intros. unfold read_constraint. apply nohang_bind; [apply vec_nh|]. intros [a l1] _.
  apply nohang_bind; [apply vec_nh|]. intros [b l2] _. apply nohang_bind; [apply vec_nh|]. intros [c l3] _. apply nohang_ok.
Qed.
Lemma constraint_shrinks : shrinks (read_constraint q rb).
Proof.
  intros l x r H. unfold read_constraint in H.
  destruct (read_constraint_vec q rb l) as [[a l1]| | |] eqn:E1; try discriminate H. cbn [bind] in H.
  destruct (read_constraint_vec q rb l1) as [[b l2]| | |] eqn:E2; try discriminate H. cbn [bind] in H.
  destruct (read_constraint_vec q rb l2) as [[c l3]| | |] eqn:E3; try discriminate H. cbn [bind] in H.
  assert (l3 = r) by congruence. subst. apply vec_shrinks in E1. apply vec_shrinks in E2. apply vec_shrinks in E3. lia.
Qed.
Lemma table_nh : forall fuel file pos m, no_hang (read_table fuel file pos m).
Proof.
  induction fuel as [|fuel IH]; intros file pos m; cbn [read_table]; [apply nohang_ok|].
  apply nohang_bind; [apply u32_nh|]. intros [t l1] _. apply nohang_bind; [apply u64_nh|]. intros [sz l2] _.
  apply nohang_bind; [unfold seek_to; destruct (_ && _); [apply nohang_ok|apply nohang_err]|]. intros p _. apply IH.
Qed.
Lemma header_nh : forall size l, no_hang (read_header size l).
Proof.
  intros. unfold read_header. apply nohang_bind; [apply u32_nh|]. intros [fs l1] _.
  apply nohang_bind; [apply re_nh|]. intros [p l2] _. destruct (negb _); [apply nohang_err|].
  do 4 (apply nohang_bind; [apply u32_nh|]; intros [? ?] _).
  apply nohang_bind; [apply u64_nh|]; intros [? ?] _. apply nohang_bind; [apply u32_nh|]; intros [? ?] _. apply nohang_ok.
Qed.
Lemma map_nh : forall size h l, no_hang (read_map size h l).
Proof.
  intros. unfold read_map. destruct (negb _); [apply nohang_err|].
  apply nohang_bind; [apply read_many_nohang; [exact read_u64_shrinks|exact u64_nh]|]. intros [v l1] _.
  apply nohang_bind; [unfold vget; destruct (nth_error v 0); [apply nohang_ok|apply nohang_panic]|]. intros v0 _.
  destruct (negb _); [apply nohang_err|apply nohang_ok].
Qed.
Lemma signals_nh : forall n ws, no_hang (take_signals n ws).
Proof.
  induction n; intros ws; cbn [take_signals]; [apply nohang_ok|]. destruct ws as [|a [|b ws]]; try apply nohang_panic.
  apply nohang_bind; [apply IHn|]. intros [s r] _. apply nohang_ok.
Qed.
Lemma signals_shrink : forall n ws s r, take_signals n ws = Ok (s, r) -> (length r <= length ws)%nat.
Proof.
  induction n; intros ws s r H; cbn [take_signals] in H; [assert (r = ws) by congruence; subst; lia|].
  destruct ws as [|a [|b ws]]; try discriminate H. destruct (take_signals n ws) as [[s' r']| | |] eqn:E; try discriminate H.
  cbn [bind] in H. assert (r' = r) by congruence. subst. apply IHn in E. cbn [length]. lia.
Qed.
Lemma take_uses_nh : forall fuel n ws, (length ws < fuel)%nat -> no_hang (take_uses fuel n ws).
Proof.
  induction fuel as [|fuel IH]; intros n ws H; [lia|]. cbn [take_uses]. destruct (n <=? 0); [apply nohang_ok|].
  destruct ws as [|id [|num ws]]; try apply nohang_panic. destruct (_ <? _); [apply nohang_panic|].
  apply nohang_bind; [apply signals_nh|]. intros [s r] E. apply signals_shrink in E. cbn [length] in H.
  apply nohang_bind; [apply IH; lia|]. intros us _. apply nohang_ok.
Qed.
Lemma uses_nh : forall size l, no_hang (read_custom_gates_uses_list size l).
Proof.
  intros. unfold read_custom_gates_uses_list.
  apply nohang_bind; [apply read_many_nohang; [exact read_u32_shrinks|exact u32_nh]|]. intros [ws l1] _.
  destruct ws; [apply nohang_panic|]. apply take_uses_nh. lia.
Qed.

(* what the section table of a file says *)
Definition section_table (file : list Z) : res (list (Z * (Z * Z))) :=
  do (n, _) <- read_u32 (skipn 8 file); read_table (Z.to_nat n) file 12 [].
Lemma hang_only_gates : forall fb file, from_reader q rb fb file = Hang ->
  exists m, section_table file = Ok m /\ sec_has CUSTOM_GATES_LIST m = true.
Proof.
  intros fb file H. unfold from_reader in H.
  destruct (read_exact 4 file) as [[mg l0]| | |] eqn:E0; cbn [bind] in H; try discriminate H.
  2:{ exfalso. exact (re_nh 4 file E0). }
  apply read_exact_inv in E0; [|lia]. destruct E0 as [EF L0].
  destruct (negb _); [discriminate H|].
  destruct (read_u32 l0) as [[v l1]| | |] eqn:E1; cbn [bind] in H; try discriminate H.
  2:{ exfalso. exact (u32_nh l0 E1). }
  destruct (negb _); [discriminate H|].
  destruct (read_u32 l1) as [[n l2]| | |] eqn:E2; cbn [bind] in H; try discriminate H.
  2:{ exfalso. exact (u32_nh l1 E2). }
  destruct (read_table (Z.to_nat n) file 12 []) as [m| | |] eqn:ET; cbn [bind] in H; try discriminate H.
  2:{ exfalso. exact (table_nh _ _ _ _ ET). }
  exists m. split.
  - unfold section_table. replace (skipn 8 file) with l1; [rewrite E2; exact ET|].
    unfold read_u32 in E1. destruct (read_exact 4 l0) as [[b1 l1']| | |] eqn:E1'; try discriminate E1. cbn [bind] in E1.
    assert (l1' = l1) by congruence. subst l1'. apply read_exact_inv in E1'; [|lia]. destruct E1' as [-> L1].
    rewrite EF, app_assoc. symmetry. apply drop_app. rewrite app_length. lia.
  - unfold sec_has. destruct (sec_get CUSTOM_GATES_LIST m) as [p|] eqn:EG; [reflexivity|]. exfalso.
    revert H. fold (@no_hang R1CSFile).
    match goal with |- ?t = Hang -> False => change (no_hang t) end.
    unfold sec_unwrap.
    apply nohang_bind; [destruct (sec_get HEADER_TYPE m); [apply nohang_ok|apply nohang_panic]|]. intros [o1 z1] _.
    apply nohang_bind; [apply header_nh|]. intros [h l3] _. cbv zeta.
    destruct (negb _); [apply nohang_err|].
    apply nohang_bind; [destruct (sec_get CONSTRAINT_TYPE m); [apply nohang_ok|apply nohang_panic]|]. intros [o2 z2] _.
    apply nohang_bind; [unfold read_constraints; apply read_many_nohang; [exact constraint_shrinks|exact constraint_nh]|]. intros [cs l4] _.
    apply nohang_bind; [destruct (sec_get WIRE2LABEL_TYPE m); [apply nohang_ok|apply nohang_panic]|]. intros [o3 z3] _.
    apply nohang_bind; [apply map_nh|]. intros [wm l5] _. cbn [bind].
    apply nohang_bind; [destruct (sec_get CUSTOM_GATES_USE m) as [[o5 z5]|]; [apply uses_nh|apply nohang_ok]|]. intros us _. apply nohang_ok.
Qed.
End Term.

(** ** the counts *)
Lemma load_counts : forall q rb fb oc file f, from_reader q rb fb file = Ok f ->
  1 + n_pub_in (f_header f) + n_pub_out (f_header f) < 2 ^ 32 -> 0 <= n_pub_out (f_header f) ->
  1 + n_pub_in (f_header f) + n_pub_out (f_header f) <= n_wires (f_header f) ->
  load_r1cs_from_bin q rb fb oc file
  = Ok (mkC (1 + n_pub_in (f_header f) + n_pub_out (f_header f))
            (n_wires (f_header f) - (1 + n_pub_in (f_header f) + n_pub_out (f_header f)))
            (n_wires (f_header f)) (n_pub_out (f_header f)) (f_constraints f) (f_custom_gates f) (f_custom_gates_uses f),
        f_wire_mapping f).
Proof.
  intros q rb fb oc file f E H1 H2 H3. unfold load_r1cs_from_bin. rewrite E. cbn [bind]. cbv zeta.
  unfold add32 at 1. replace (1 + n_pub_in (f_header f) <? 2 ^ 32) with true by (symmetry; apply Z.ltb_lt; lia). cbn [bind].
  unfold add32. replace (1 + n_pub_in (f_header f) + n_pub_out (f_header f) <? 2 ^ 32) with true by (symmetry; apply Z.ltb_lt; lia).
  cbn [bind]. replace (_ <=? n_wires (f_header f)) with true by (symmetry; apply Z.leb_le; lia). reflexivity.
Qed.
Lemma sort_constraints_spec : forall cs, Forall2 sorted_constraint cs (map sort_constraint cs).
Proof.
  induction cs as [|[[a b] c] cs IH]; cbn [map]; constructor; [|exact IH].
  cbn [sorted_constraint sort_constraint]. repeat split; try apply sort_spec; apply (proj2 (sort_spec _)).
Qed.

(** ** concrete files *)
Definition gl_header (wires ncs : Z) : Header := mkHeader 8 (le_bytes 8 gl_prime) wires 1 0 1 wires ncs false.
Definition bls_header (wires ncs : Z) : Header := mkHeader 32 (le_bytes 32 bls_prime) wires 1 0 1 wires ncs false.
(* the list of custom gates ends inside the first name *)
Definition cut_file : list Z :=
  r1cs_file [(1, enc_header (gl_header 3 0)); (2, []); (3, enc_labels [0; 1; 2]); (4, le_bytes 4 1 ++ [65; 66])] [].
Lemma cut_file_hangs : from_reader gl_prime 8 8 cut_file = Hang.
Proof. vm_compute. reflexivity. Qed.
Lemma cut_file_bytes : Forall isbyte cut_file.
Proof.
  assert (H : forallb (fun b => (0 <=? b) && (b <? 256)) cut_file = true) by (vm_compute; reflexivity).
  apply Forall_forall. intros b Hb. rewrite forallb_forall in H. specialize (H b Hb).
  apply andb_true_iff in H. destruct H as [H1 H2]. apply Z.leb_le in H1. apply Z.ltb_lt in H2. split; assumption.
Qed.
(* a system over one field read as a system over another one *)
Definition bls_cs : list (list (Z * Z) * list (Z * Z) * list (Z * Z)) := [([(1, 5)], [(2, 7)], [(0, 9)])].
Definition bls_file : list Z :=
  r1cs_file [(1, enc_header (bls_header 3 1)); (2, concat (map (enc_constraint 32) bls_cs)); (3, enc_labels [0; 1; 2])] [].
Lemma bls_file_read : rmap f_constraints (from_reader bn_prime 32 32 bls_file) = Ok bls_cs
  /\ rmap (fun f => prime_size (f_header f)) (from_reader bn_prime 32 32 bls_file) = Ok (le_bytes 32 bls_prime).
Proof. split; vm_compute; reflexivity. Qed.
(* no wires at all, or a section missing *)
Lemma empty_panics :
  from_reader gl_prime 8 8 (r1cs_file [(1, enc_header (gl_header 0 0)); (2, []); (3, [])] []) = Panic /\
  from_reader gl_prime 8 8 (r1cs_file [(1, enc_header (gl_header 3 0)); (2, [])] []) = Panic.
Proof. split; vm_compute; reflexivity. Qed.
Definition gl_cs : list (list (Z * Z) * list (Z * Z) * list (Z * Z)) := [([(2, 5); (1, 6)], [(0, 7)], [(3, 1); (1, 8); (1, 9)])].
Definition gl_file : list Z :=
  r1cs_file [(5, enc_uses [mkCU 0 [1; 2 ^ 33 + 5]]); (7, [1; 2; 3]); (3, enc_labels [0; 1; 2; 3]);
             (2, concat (map (enc_constraint 8) gl_cs)); (1, enc_header (gl_header 4 1));
             (4, enc_gates 8 [mkCG [67; 109] [11; 12]])] [9; 9].
Lemma sorted_terms_facts : forall l r, sorted_terms l r -> (Permutation l r /\ forall r', sorted_terms l r' -> r' = r).
Proof. intros l r H. split; [apply sorted_perm; exact H|]. intros r' H'. exact (sorted_unique l r' r H' H). Qed.
Lemma parse_file_sorted : forall q rb secs trailing h cs wm gates uses,
  (1 <= rb)%nat -> q <= 256 ^ Z.of_nat rb ->
  Z.of_nat (length (r1cs_file secs trailing)) < 2 ^ 63 -> Z.of_nat (length secs) < 2 ^ 32 ->
  Forall (fun s => 0 <= fst s < 2 ^ 32) secs ->
  header_ok h -> known_prime h ->
  last_section 1 secs = Some (enc_header h) ->
  last_section 2 secs = Some (concat (map (enc_constraint rb) cs)) ->
  last_section 3 secs = Some (enc_labels wm) ->
  last_section 4 secs = option_map (enc_gates rb) gates ->
  last_section 5 secs = option_map enc_uses uses ->
  Forall (constraint_ok q) cs -> n_constraints h = Z.of_nat (length cs) ->
  Forall (fun v => 0 <= v < 2 ^ 64) wm -> n_wires h = Z.of_nat (length wm) -> hd_error wm = Some 0 ->
  Forall (gate_ok q) (opt_list gates) -> Z.of_nat (length (opt_list gates)) < 2 ^ 32 ->
  Forall use_ok (opt_list uses) -> Z.of_nat (length (opt_list uses)) < 2 ^ 32 ->
  exists cs', Forall2 sorted_constraint cs cs' /\
  from_reader q (Z.of_nat rb) (field_size h) (r1cs_file secs trailing)
  = Ok (mkFile 1 (with_gates h (is_some uses && is_some gates)) cs' wm (opt_list gates) (opt_list uses)).
Proof.
  intros. exists (map sort_constraint cs). split; [apply sort_constraints_spec|]. apply parse_file; assumption.
Qed.
