(* Bit reversal and its cache (fft_p.rs BR, BRs). *)
From Verif Require Import Base ListAux GlModel FrField F3gModel PolyModel Roots PolyProof FftProof HashModel FftpModel.
Open Scope Z_scope.

Lemma in_range_32 m : 0 <= m < 32 -> In m (map Z.of_nat (seq 0 32)).
Proof. intros H. apply in_map_iff. exists (Z.to_nat m). split; [lia|]. apply in_seq. lia. Qed.

Ltac cases32 H := apply in_range_32 in H; cbn [map seq Z.of_nat Pos.of_succ_nat Pos.succ] in H;
  repeat (destruct H as [<-|H]); [..|destruct H].
Ltac consts := repeat match goal with |- context [Z.testbit (Zpos ?c) ?e] =>
  let v := eval vm_compute in (Z.testbit (Zpos c) e) in change (Z.testbit (Zpos c) e) with v end.

Definition stage (a b n x : Z) : Z := Z.lor (Z.shiftr (Z.land x a) n) (Z.shiftl (Z.land x b) n mod 2 ^ 64).
Lemma stage_bits a b n x m : 0 <= m < 32 -> 0 <= n ->
  Z.testbit (stage a b n x) m = (Z.testbit x (m + n) && Z.testbit a (m + n)) || (Z.testbit x (m - n) && Z.testbit b (m - n)).
Proof.
  intros Hm Hn. unfold stage. rewrite Z.lor_spec, Z.shiftr_spec, Z.mod_pow2_bits_low, Z.shiftl_spec, !Z.land_spec by lia. reflexivity.
Qed.
Definition swap_bit (n m : Z) : Z := if Z.land m n =? 0 then m + n else m - n.

Lemma stage8 x m : 0 <= m < 32 -> Z.testbit (stage 0xFF00FF00 0x00FF00FF 8 x) m = Z.testbit x (swap_bit 8 m).
Proof.
  intros H. rewrite stage_bits by lia. cases32 H; consts; rewrite ?andb_true_r, ?andb_false_r, ?orb_false_r; reflexivity.
Qed.
Lemma stage4 x m : 0 <= m < 32 -> Z.testbit (stage 0xF0F0F0F0 0x0F0F0F0F 4 x) m = Z.testbit x (swap_bit 4 m).
Proof.
  intros H. rewrite stage_bits by lia. cases32 H; consts; rewrite ?andb_true_r, ?andb_false_r, ?orb_false_r; reflexivity.
Qed.
Lemma stage2 x m : 0 <= m < 32 -> Z.testbit (stage 0xCCCCCCCC 0x33333333 2 x) m = Z.testbit x (swap_bit 2 m).
Proof.
  intros H. rewrite stage_bits by lia. cases32 H; consts; rewrite ?andb_true_r, ?andb_false_r, ?orb_false_r; reflexivity.
Qed.
Lemma stage1 x m : 0 <= m < 32 -> Z.testbit (stage 0xAAAAAAAA 0x55555555 1 x) m = Z.testbit x (swap_bit 1 m).
Proof.
  intros H. rewrite stage_bits by lia. cases32 H; consts; rewrite ?andb_true_r, ?andb_false_r, ?orb_false_r; reflexivity.
Qed.
Lemma bit_high x n : 0 <= x < 2 ^ 32 -> 32 <= n -> Z.testbit x n = false.
Proof.
  intros Hx Hn. destruct (Z.eq_dec x 0) as [->|N]; [apply Z.bits_0|]. apply Z.bits_above_log2; [lia|].
  apply Z.log2_lt_pow2; [lia|]. apply Z.lt_le_trans with (2 ^ 32); [lia|]. apply Z.pow_le_mono_r; lia.
Qed.
Lemma stage16 x m : 0 <= x < 2 ^ 32 -> 0 <= m < 32 ->
  Z.testbit (Z.lor (Z.shiftr x 16) (Z.shiftl x 16 mod 2 ^ 64)) m = Z.testbit x (swap_bit 16 m).
Proof.
  intros Hx Hm. rewrite Z.lor_spec, Z.shiftr_spec, Z.mod_pow2_bits_low, Z.shiftl_spec by lia.
  destruct (Z.lt_ge_cases m 16) as [L|L].
  - rewrite (Z.testbit_neg_r x (m - 16)) by lia. rewrite orb_false_r. cases32 Hm; try lia; reflexivity.
  - rewrite (bit_high x (m + 16)) by lia. rewrite orb_false_l. cases32 Hm; try lia; reflexivity.
Qed.

Lemma swap_range n m : In n [1; 2; 4; 8; 16] -> 0 <= m < 32 -> 0 <= swap_bit n m < 32.
Proof.
  intros Hn Hm. cbn [In] in Hn. destruct Hn as [<-|[<-|[<-|[<-|[<-|[]]]]]]; cases32 Hm; vm_compute; split; congruence.
Qed.

Definition rev32 (x : Z) : Z :=
  stage 0xAAAAAAAA 0x55555555 1 (stage 0xCCCCCCCC 0x33333333 2 (stage 0xF0F0F0F0 0x0F0F0F0F 4
    (stage 0xFF00FF00 0x00FF00FF 8 (Z.lor (Z.shiftr x 16) (Z.shiftl x 16 mod 2 ^ 64))))).
Lemma rev32_low x m : 0 <= x < 2 ^ 32 -> 0 <= m < 32 -> Z.testbit (rev32 x) m = Z.testbit x (31 - m).
Proof.
  intros Hx Hm. unfold rev32.
  assert (R1 := swap_range 1 m ltac:(cbn; tauto) Hm). rewrite stage1 by exact Hm.
  assert (R2 := swap_range 2 _ ltac:(cbn; tauto) R1). rewrite stage2 by exact R1.
  assert (R4 := swap_range 4 _ ltac:(cbn; tauto) R2). rewrite stage4 by exact R2.
  assert (R8 := swap_range 8 _ ltac:(cbn; tauto) R4). rewrite stage8 by exact R4.
  rewrite stage16 by assumption. clear R1 R2 R4 R8. f_equal. cases32 Hm; reflexivity.
Qed.
Lemma rev32_high x m : 32 <= m -> Z.testbit (rev32 x) m = false.
Proof.
  intros Hm. unfold rev32, stage at 1. rewrite Z.lor_spec, Z.shiftr_spec by lia.
  rewrite Z.land_spec, (bit_high 0xAAAAAAAA) by lia. rewrite andb_false_r, orb_false_l.
  destruct (Z.lt_ge_cases m 64) as [L|L].
  - rewrite Z.mod_pow2_bits_low, Z.shiftl_spec, Z.land_spec by lia.
    rewrite (Z.bits_above_log2 0x55555555 (m - 1)); [apply andb_false_r|lia|]. change (Z.log2 0x55555555) with 30. lia.
  - apply Z.mod_pow2_bits_high. lia.
Qed.
Lemma br_cal_eq x k : br_cal x k = Z.shiftr (rev32 x) (32 - k).
Proof. reflexivity. Qed.

Theorem br_cal_bits x k j : 0 <= x < 2 ^ 32 -> 0 <= k <= 32 -> 0 <= j ->
  Z.testbit (br_cal x k) j = if j <? k then Z.testbit x (k - 1 - j) else false.
Proof.
  intros Hx Hk Hj. rewrite br_cal_eq, Z.shiftr_spec by lia. destruct (Z.ltb_spec j k) as [L|L].
  - rewrite rev32_low by lia. f_equal. lia.
  - apply rev32_high. lia.
Qed.
Lemma br_cal_range x k : 0 <= x < 2 ^ 32 -> 0 <= k <= 32 -> 0 <= br_cal x k < 2 ^ k.
Proof.
  intros Hx Hk.
  assert (N : 0 <= br_cal x k).
  { rewrite br_cal_eq. apply Z.shiftr_nonneg. unfold rev32, stage at 1. apply Z.lor_nonneg. split.
    - apply Z.shiftr_nonneg. apply Z.land_nonneg. right. lia.
    - apply Z.mod_pos_bound. lia. }
  split; [exact N|]. destruct (Z.lt_ge_cases (br_cal x k) (2 ^ k)) as [L|L]; [exact L|exfalso].
  assert (P : 0 < br_cal x k) by (pose proof (Z.pow_pos_nonneg 2 k); lia).
  pose proof (Z.bit_log2 _ P) as B. rewrite br_cal_bits in B by (try lia; apply Z.log2_nonneg).
  destruct (Z.ltb_spec (Z.log2 (br_cal x k)) k) as [Q|Q]; [|discriminate B].
  apply Z.log2_le_pow2 in L; lia.
Qed.

Lemma rev_bits_bits n : forall x j, 0 <= x -> 0 <= j -> Z.testbit (rev_bits n x) j = if j <? Z.of_nat n then Z.testbit x (Z.of_nat n - 1 - j) else false.
Proof.
  induction n; intros x j Hx Hj.
  - cbn [rev_bits]. rewrite Z.bits_0. destruct (Z.ltb_spec j (Z.of_nat 0)); [lia|reflexivity].
  - cbn [rev_bits]. pose proof (rev_bits_range n (x / 2)) as R. pose proof (Z.mod_pos_bound x 2 ltac:(lia)) as M.
    assert (Hx2 : 0 <= x / 2) by (apply Z.div_pos; lia).
    assert (E : x mod 2 * 2 ^ Z.of_nat n + rev_bits n (x / 2) = Z.lor (Z.shiftl (x mod 2) (Z.of_nat n)) (rev_bits n (x / 2))).
    { rewrite <- Z.shiftl_mul_pow2 by lia.
      assert (D : Z.land (Z.shiftl (x mod 2) (Z.of_nat n)) (rev_bits n (x / 2)) = 0).
      { apply Z.bits_inj'. intros i Hi. rewrite Z.bits_0, Z.land_spec, Z.shiftl_spec by lia.
        destruct (Z.lt_ge_cases i (Z.of_nat n)) as [L|L].
        - rewrite (Z.testbit_neg_r _ (i - Z.of_nat n)) by lia. reflexivity.
        - rewrite IHn by lia. replace (i <? Z.of_nat n) with false by (symmetry; apply Z.ltb_ge; lia). apply andb_false_r. }
      rewrite Z.add_nocarry_lxor, Z.lxor_lor by exact D. reflexivity. }
    rewrite E, Z.lor_spec, Z.shiftl_spec, IHn by lia. rewrite Nat2Z.inj_succ.
    destruct (Z.ltb_spec j (Z.of_nat n)) as [L|L].
    + replace (j <? Z.succ (Z.of_nat n)) with true by (symmetry; apply Z.ltb_lt; lia).
      rewrite (Z.testbit_neg_r _ (j - Z.of_nat n)) by lia. rewrite orb_false_l.
      rewrite <- Z.div2_div, Z.div2_spec, Z.shiftr_spec by lia. f_equal. lia.
    + rewrite orb_false_r. destruct (Z.ltb_spec j (Z.succ (Z.of_nat n))) as [Q|Q].
      * replace (j - Z.of_nat n) with 0 by lia. replace (Z.succ (Z.of_nat n) - 1 - j) with 0 by lia.
        rewrite !Z.bit0_odd, Zmod_odd. destruct (Z.odd x); reflexivity.
      * destruct (Z.eq_dec (x mod 2) 0) as [->|N]; [apply Z.bits_0|]. replace (x mod 2) with 1 by lia.
        apply Z.bits_above_log2; [lia|]. change (Z.log2 1) with 0. lia.
Qed.

Theorem br_cal_rev x k : 0 <= x < 2 ^ 32 -> (k <= 32)%nat -> br_cal x (Z.of_nat k) = rev_bits k x.
Proof.
  intros Hx Hk. apply Z.bits_inj'. intros j Hj. rewrite br_cal_bits, rev_bits_bits by lia. reflexivity.
Qed.

(** ** the cache *)
Open Scope nat_scope.
Definition entry_ok (e : nat * list Z) : Prop :=
  snd e = map (fun i => br_cal (Z.of_nat i) (Z.of_nat (fst e))) (seq 0 (length (snd e))).
Definition full (e : nat * list Z) : Prop := 2 ^ fst e < length (snd e).
Definition good (st : brstate) : Prop := Forall entry_ok (br_map st).

Lemma lookup_ok k m : Forall entry_ok m -> entry_ok (k, br_lookup k m).
Proof.
  intros H. unfold br_lookup. destruct (find (fun e => fst e =? k) m) as [e|] eqn:E; [|reflexivity].
  apply find_some in E. destruct E as [I Q]. apply Nat.eqb_eq in Q. subst k. rewrite Forall_forall in H.
  specialize (H _ I). destruct e as [a c]. exact H.
Qed.
Lemma remove_ok (Q : nat * list Z -> Prop) k m : Forall Q m -> Forall Q (br_remove k m).
Proof. intros H. unfold br_remove. apply incl_Forall with m; [|exact H]. apply incl_filter. Qed.

Definition new_cache (x k : nat) (c : list Z) : list Z :=
  if (length c <=? 2 ^ k) || (length c <? x)
  then c ++ map (fun i => br_cal (Z.of_nat i) (Z.of_nat k)) (seq (length c) (S (Nat.max (2 ^ k) x) - length c)) else c.
Lemma new_cache_ok x k c : entry_ok (k, c) -> entry_ok (k, new_cache x k c).
Proof.
  unfold entry_ok, new_cache. cbn [fst snd]. intros H. destruct (_ || _); [|exact H].
  rewrite app_length, map_length, seq_length, seq_app, map_app, <- H. reflexivity.
Qed.

Lemma BR_unfold x k st : k <= 32 -> br_poisoned st = false ->
  BR x k st = match nth_error (new_cache x k (br_lookup k (br_map st))) x with
    | Some r => (Ok (Z.to_nat r), mkBR ((k, new_cache x k (br_lookup k (br_map st))) :: br_remove k (br_map st)) false)
    | None => (Panic, mkBR (br_remove k (br_map st)) true)
    end.
Proof.
  intros Hk Hp. unfold BR. replace (32 <? k) with false by (symmetry; apply Nat.ltb_ge; exact Hk). rewrite Hp. reflexivity.
Qed.

Lemma BR_good x k st : good st -> good (snd (BR x k st)).
Proof.
  intros G. destruct (Nat.lt_ge_cases 32 k) as [L|L].
  - unfold BR. replace (32 <? k) with true by (symmetry; apply Nat.ltb_lt; exact L). exact G.
  - destruct (br_poisoned st) eqn:P.
    + unfold BR. replace (32 <? k) with false by (symmetry; apply Nat.ltb_ge; exact L). rewrite P. exact G.
    + rewrite BR_unfold by assumption. destruct (nth_error _ x); cbn [snd]; unfold good; cbn [br_map].
      * constructor; [apply new_cache_ok; apply lookup_ok; exact G|apply remove_ok; exact G].
      * apply remove_ok. exact G.
Qed.

Theorem BR_value x k st r : good st -> (Z.of_nat x < 2 ^ 32)%Z -> fst (BR x k st) = Ok r ->
  forall j, (0 <= j)%Z ->
    Z.testbit (Z.of_nat r) j = if (j <? Z.of_nat k)%Z then Z.testbit (Z.of_nat x) (Z.of_nat k - 1 - j) else false.
Proof.
  intros G Hx E. destruct (Nat.lt_ge_cases 32 k) as [L|L].
  { unfold BR in E. replace (32 <? k) with true in E by (symmetry; apply Nat.ltb_lt; exact L). discriminate E. }
  destruct (br_poisoned st) eqn:P.
  { unfold BR in E. replace (32 <? k) with false in E by (symmetry; apply Nat.ltb_ge; exact L). rewrite P in E. discriminate E. }
  rewrite BR_unfold in E by assumption. pose proof (new_cache_ok x k _ (lookup_ok k _ G)) as O. unfold entry_ok in O. cbn [fst snd] in O.
  destruct (nth_error (new_cache x k (br_lookup k (br_map st))) x) as [v|] eqn:N; [|discriminate E]. cbn [fst] in E.
  assert (Er : r = Z.to_nat v) by congruence. rewrite O in N. rewrite nth_error_map in N.
  destruct (nth_error (seq 0 _) x) as [y|] eqn:Ns; [|discriminate N]. cbn [option_map] in N.
  assert (y = x).
  { assert (Lx : x < length (seq 0 (length (new_cache x k (br_lookup k (br_map st)))))) by (apply nth_error_Some; congruence).
    rewrite seq_length in Lx. rewrite (nth_error_nth' _ 0) in Ns by (rewrite seq_length; exact Lx). rewrite seq_nth in Ns by exact Lx. cbn in Ns. congruence. }
  subst y. assert (Ev : v = br_cal (Z.of_nat x) (Z.of_nat k)) by congruence. intros j Hj.
  pose proof (br_cal_range (Z.of_nat x) (Z.of_nat k) ltac:(lia) ltac:(lia)) as Rg.
  rewrite Er, Ev, Z2Nat.id by lia. apply br_cal_bits; lia.
Qed.

(** ** histories *)
Fixpoint run_BR (calls : list (nat * nat)) (st : brstate) : list (res nat) * brstate :=
  match calls with
  | [] => ([], st)
  | (x, k) :: r => let '(v, st) := BR x k st in let '(vs, st) := run_BR r st in (v :: vs, st)
  end.
Lemma run_good calls : forall st, good st -> good (snd (run_BR calls st)).
Proof.
  induction calls as [|[x k] r IH]; intros st G; [exact G|]. cbn [run_BR]. pose proof (BR_good x k st G) as G1.
  destruct (BR x k st) as [v st1]. cbn [snd] in G1. specialize (IH st1 G1). destruct (run_BR r st1). exact IH.
Qed.
Lemma new_good : good br_new.
Proof. constructor. Qed.
Theorem history_value calls x k r : (Z.of_nat x < 2 ^ 32)%Z -> fst (BR x k (snd (run_BR calls br_new))) = Ok r ->
  forall j, (0 <= j)%Z ->
    Z.testbit (Z.of_nat r) j = if (j <? Z.of_nat k)%Z then Z.testbit (Z.of_nat x) (Z.of_nat k - 1 - j) else false.
Proof. intros Hx. apply BR_value; [|exact Hx]. apply run_good. exact new_good. Qed.

(* calls within the domain never fail *)
Definition nice (st : brstate) : Prop := br_poisoned st = false /\ Forall full (br_map st) /\ good st.
Lemma BR_nice x k st : nice st -> k <= 32 -> x <= 2 ^ k -> exists r, fst (BR x k st) = Ok r /\ nice (snd (BR x k st)) /\
  exists c, br_map (snd (BR x k st)) = (k, c) :: br_remove k (br_map st) /\ full (k, c) /\ entry_ok (k, c).
Proof.
  intros [P [F G]] Hk Hx. pose proof (BR_good x k st G) as G1. pose proof (new_cache_ok x k _ (lookup_ok k _ G)) as O.
  rewrite BR_unfold in * by assumption.
  set (c := br_lookup k (br_map st)) in *.
  assert (Lc : 2 ^ k < length (new_cache x k c)).
  { unfold new_cache. destruct (Nat.leb_spec (length c) (2 ^ k)) as [Q|Q]; cbn [orb].
    - rewrite app_length, map_length, seq_length. lia.
    - destruct (Nat.ltb_spec (length c) x) as [Q2|Q2]; [|exact Q]. rewrite app_length, map_length, seq_length. lia. }
  destruct (nth_error (new_cache x k c) x) as [v|] eqn:N.
  - exists (Z.to_nat v). cbn [fst snd] in *. split; [reflexivity|]. split.
    + split; [reflexivity|]. split; [|exact G1]. cbn [br_map]. constructor; [exact Lc|]. apply remove_ok. exact F.
    + exists (new_cache x k c). split; [reflexivity|]. split; [exact Lc|exact O].
  - exfalso. apply nth_error_None in N. lia.
Qed.
Theorem history_total calls : Forall (fun c => snd c <= 32 /\ fst c <= 2 ^ snd c) calls -> forall st, nice st ->
  Forall (fun v => exists r, v = Ok r) (fst (run_BR calls st)) /\ nice (snd (run_BR calls st)).
Proof.
  induction 1 as [|[x k] r [Hk Hx] _ IH]; intros st N; [split; [constructor|exact N]|]. cbn [run_BR fst snd] in *.
  destruct (BR_nice x k st N Hk Hx) as [v [E [N1 _]]]. destruct (BR x k st) as [w st1]. cbn [fst snd] in *.
  destruct (IH st1 N1) as [A B]. destruct (run_BR r st1) as [vs st2]. cbn [fst snd] in *. split; [|exact B].
  constructor; [eauto|exact A].
Qed.
Lemma new_nice : nice br_new.
Proof. split; [reflexivity|]. split; constructor. Qed.

(* the first argument past the cached range panics and poisons the lock *)
Theorem history_fails k : k <= 32 ->
  exists r, fst (run_BR [(0, k); (2 ^ k + 1, k)] br_new) = [Ok r; Panic] /\
    forall calls, Forall (fun v => v = Panic) (fst (run_BR calls (snd (run_BR [(0, k); (2 ^ k + 1, k)] br_new)))).
Proof.
  intros Hk. pose proof (pow2_pos k) as P2.
  assert (E1 : exists r c, BR 0 k br_new = (Ok r, mkBR [(k, c)] false) /\ length c = 2 ^ k + 1).
  { rewrite BR_unfold by (try exact Hk; reflexivity). change (br_lookup k (br_map br_new)) with (@nil Z).
    set (c := new_cache 0 k []).
    assert (Lc : length c = 2 ^ k + 1).
    { unfold c, new_cache. cbn [length]. replace (0 <=? 2 ^ k) with true by (symmetry; apply Nat.leb_le; lia). cbn [orb].
      rewrite app_length, map_length, seq_length. cbn [length]. lia. }
    destruct (nth_error c 0) as [v|] eqn:N; [|apply nth_error_None in N; lia]. exists (Z.to_nat v), c. split; [reflexivity|exact Lc]. }
  destruct E1 as [r [c [E1 Lc]]].
  assert (E2 : BR (2 ^ k + 1) k (mkBR [(k, c)] false) = (Panic, mkBR [] true)).
  { rewrite BR_unfold by (try exact Hk; reflexivity). cbn [br_map br_lookup br_remove filter]. unfold br_lookup. cbn [find fst]. rewrite Nat.eqb_refl. cbn [snd negb].
    unfold new_cache. rewrite Lc. replace (2 ^ k + 1 <=? 2 ^ k) with false by (symmetry; apply Nat.leb_gt; lia). rewrite Nat.ltb_irrefl. cbn [orb].
    replace (nth_error c (2 ^ k + 1)) with (@None Z) by (symmetry; apply nth_error_None; lia). reflexivity. }
  exists r. cbn [run_BR]. rewrite E1, E2. cbn [fst snd]. split; [reflexivity|].
  intros calls. assert (G : forall st, br_poisoned st = true -> Forall (fun v => v = Panic) (fst (run_BR calls st))).
  { induction calls as [|[x j] l IH]; intros st Hp; [constructor|]. cbn [run_BR]. unfold BR. rewrite Hp.
    destruct (32 <? j); specialize (IH st Hp); destruct (run_BR l st); cbn [fst] in *; constructor; auto. }
  apply G. reflexivity.
Qed.

(** ** the tables *)
Lemma BRs_ok k st : nice st -> k <= 32 -> exists st',
  BRs 0 (2 ^ k) k st = (Ok (map (fun i => Z.to_nat (br_cal (Z.of_nat i) (Z.of_nat k))) (seq 0 (2 ^ k))), st') /\ nice st'.
Proof.
  intros N Hk. pose proof (pow2_pos k) as P2. unfold BRs. replace (2 ^ k <=? 0) with false by (symmetry; apply Nat.leb_gt; lia).
  destruct (BR_nice (2 ^ k) k st N Hk ltac:(lia)) as [r [E [N1 [c [Em [F O]]]]]]. destruct (BR (2 ^ k) k st) as [v st1]. cbn [fst snd] in *. subst v.
  rewrite Em. cbn [find fst]. rewrite Nat.eqb_refl. unfold full in F. cbn [fst snd] in F. unfold entry_ok in O. cbn [fst snd] in O.
  rewrite Nat.sub_0_r.
  assert (M : mapM (fun i => vget c i) (seq 0 (2 ^ k)) = Ok (map (fun i => br_cal (Z.of_nat i) (Z.of_nat k)) (seq 0 (2 ^ k)))).
  { assert (G : forall q, Forall (fun i => i < length c) q -> mapM (fun i => vget c i) q = Ok (map (fun i => br_cal (Z.of_nat i) (Z.of_nat k)) q)).
    { induction 1 as [|i q Hi _ IH]; [reflexivity|]. cbn [mapM map].
      assert (Ni : nth_error c i = Some (br_cal (Z.of_nat i) (Z.of_nat k))).
      { rewrite O, nth_error_map, (nth_error_nth' _ 0) by (rewrite seq_length; exact Hi). rewrite seq_nth by exact Hi. reflexivity. }
      rewrite (vget_some _ _ _ Ni). cbn [bind]. rewrite IH. reflexivity. }
    apply G. apply Forall_forall. intros i Hi. apply in_seq in Hi. lia. }
  rewrite M. exists st1. split; [|exact N1]. rewrite map_map. reflexivity.
Qed.
