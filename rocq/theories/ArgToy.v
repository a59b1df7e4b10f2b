(* A small state machine with one lookup, one permutation and one connection, and traces that satisfy the generated
   constraints for all but a few challenges. *)
From Coq Require Import Ring Field Permutation.
From Verif Require Import Base GlModel FrField F3gModel Cubic F3gProof ListAux PolyModel PolyProof Roots ProverModel ProverProof CodegenModel CodegenProof StarkMath
  StarkStep4 ArgModel ArgMath ArgSound ArgRows ArgGen ConnectProof ArgLabel ArgTop.
Open Scope nat_scope.
Open Scope list_scope.
Open Scope res_scope.
Add Ring K_ring_argy : K_ring.
Add Field K_field_argy : K_field.

(* ---- all but a few elements of the field ---- *)
Definition small (i : nat) : K := kconst (fof (Z.of_nat i)).
Lemma small_inj i j : i < 1000 -> j < 1000 -> small i = small j -> i = j.
Proof.
  intros Hi Hj E. apply kconst_inj in E. apply (f_equal fint) in E. rewrite !fint_of in E. rewrite !Z.mod_small in E by (unfold NumTheory.P; lia). lia.
Qed.
Lemma without_len (bad l : list K) : NoDup l -> length l <= length (filter (fun x => if in_dec k_dec x bad then false else true) l) + length bad.
Proof.
  intros ND. assert (H : length (filter (fun x => if in_dec k_dec x bad then true else false) l) <= length bad).
  { apply NoDup_incl_length; [apply NoDup_filter, ND|]. intros x Hx. apply filter_In in Hx. destruct Hx as [_ Hx]. destruct (in_dec k_dec x bad); [assumption|discriminate Hx]. }
  clear ND. revert H. generalize (length bad) as m. induction l as [|x l IH]; intros m H; [cbn [length]; lia|]. cbn [filter] in *. destruct (in_dec k_dec x bad) as [I|N]; cbn [length] in *.
  - destruct m as [|m]; [lia|]. specialize (IH m ltac:(lia)). lia.
  - specialize (IH m H). lia.
Qed.
Lemma many_except m (Q : K -> Prop) bad : m + length bad < 1000 -> (forall x, ~ In x bad -> Q x) -> many m Q.
Proof.
  intros L H. pose (l := map small (seq 0 1000)). assert (ND : NoDup l).
  { unfold l. apply SoundLast.nodup_map; [|apply seq_NoDup]. intros i j Hi Hj. apply in_seq in Hi, Hj. apply small_inj; lia. }
  exists (filter (fun x => if in_dec k_dec x bad then false else true) l). split; [apply NoDup_filter, ND|]. split.
  - pose proof (without_len bad l ND) as W. assert (E : length l = 1000) by (unfold l; rewrite map_length, seq_length; reflexivity). lia.
  - intros x Hx. apply filter_In in Hx. destruct Hx as [_ Hx]. apply H. destruct (in_dec k_dec x bad); [discriminate Hx|assumption].
Qed.

(* ---- a trace from its columns ---- *)
Section Trace.
  Variables (n : nat) (w : K) (ch : nat -> K) (cm cst : nat -> nat -> K).
  Definition toy_rho (i : nat) (d : node) : F3G := of_k
    match n_ty d with
    | Ncm => cm (n_id d) (at_row n (n_prime d) i)
    | Nconst => cst (n_id d) (at_row n (n_prime d) i)
    | Nchallenge => ch (n_id d)
    | Nnumber => match n_value d with Some z => kconst (fof z) | None => kzero end
    | Nx => kpow w i
    | _ => kzero
    end.
  Lemma toy_rows l : (forall i, i < n -> cst l i = if i =? 0 then kone else kzero) -> rows n w (Some l) ch toy_rho.
  Proof.
    intros HL. constructor; intros; unfold toy_rho; cbn [n_ty n_id n_prime n_value N_new at_row]; rewrite ?of_k_val; try reflexivity.
    assert (l0 = l) by congruence. subst l0. apply HL. assumption.
  Qed.
  Lemma toy_cm tbl j c p i : nth_error tbl j = Some (E_cm c false) -> va tbl (toy_rho i) p (E_exp j false) (cm c (at_row n p i)).
  Proof. intros E. eapply va_exp; [exact E|reflexivity|]. cbn [orb]. eapply va_eq; [apply va_cm; reflexivity|]. cbn [orb]. unfold toy_rho. cbn [n_ty n_id n_prime N_new]. apply of_k_val. Qed.
  Lemma toy_cst tbl j c p i : nth_error tbl j = Some (E_const c false) -> va tbl (toy_rho i) p (E_exp j false) (cst c (at_row n p i)).
  Proof. intros E. eapply va_exp; [exact E|reflexivity|]. cbn [orb]. eapply va_eq; [apply va_const; reflexivity|]. cbn [orb]. unfold toy_rho. cbn [n_ty n_id n_prime N_new]. apply of_k_val. Qed.
  Lemma toy_cmcol c i : cmcol toy_rho c i = cm c i.
  Proof. unfold cmcol, toy_rho. cbn [n_ty n_id n_prime N_new at_row]. apply of_k_val. Qed.
End Trace.

(* ---- the state machine ---- *)
Definition ay_s : astate := mkA [E_cm 0 false; E_cm 1 false; E_cm 2 false; E_cm 3 false; E_cm 4 false; E_cm 5 false; E_const 1 false; E_const 2 false] [] 6 (mkCtx 0 [] []).
Definition ay_look : lident := mkL (Some [0; 1]) (Some [2; 3]) None None.
Definition ay_perm : lident := mkL (Some [2; 3]) (Some [4; 5]) None None.
Definition ay_conn : cident := mkCI (Some [0; 4]) (Some [6; 7]).
Definition ay_2 := generate_step2 20 ay_s [ay_look].
Definition ay_3 := match ay_2 with Ok (s2, pu, _) => generate_step3 20 (Some 0) s2 pu [ay_perm] [ay_conn] | _ => Panic end.
Definition ay_out : step3out := match ay_3 with Ok o => o | _ => mkS3 ay_s [] [] [] ([], 0) end.
Definition ay_s2 : astate := match ay_2 with Ok (s2, _, _) => s2 | _ => ay_s end.
Definition ay_pu : list pcctx9 := match ay_2 with Ok (_, pu, _) => pu | _ => [] end.
Definition ay_code : list instr * nat := match ay_2 with Ok (_, _, c) => c | _ => ([], 0) end.
Definition ay_q1 : pcctx9 := mkQ 6 7 9 8 12 15 13 14 8.
Definition ay_q2 : pcctx9 := mkQ 0 0 11 10 16 19 17 18 9.
Definition ay_q3 : pcctx9 := mkQ 0 0 0 0 24 25 22 23 10.
Lemma ay_run : generate_step2 20 ay_s [ay_look] = Ok (ay_s2, ay_pu, ay_code) /\ generate_step3 20 (Some 0) ay_s2 ay_pu [ay_perm] [ay_conn] = Ok ay_out.
Proof. split; vm_compute; reflexivity. Qed.
Lemma ay_qs : o_pu ay_out = [ay_q1] /\ o_pe ay_out = [ay_q2] /\ o_ci ay_out = [ay_q3].
Proof. split; [vm_compute; reflexivity|]. split; vm_compute; reflexivity. Qed.

(* ---- columns ---- *)
Definition ay_c (z : Z) : K := kconst (fof z).
Definition ay_F (i : nat) : list K := [ay_c 1; ay_c 2].
Definition ay_T (i : nat) : list K := match i with 0 => [ay_c 1; ay_c 2] | _ => [ay_c 3; ay_c 4] end.
Definition ay_R (i : nat) : list K := match i with 0 => [ay_c 3; ay_c 4] | _ => [ay_c 1; ay_c 2] end.
Definition ay_one (i : nat) : K := kone.
Definition ay_w : K := kconst (root 1).
Definition ay_p (c i : nat) : K := match c with 0 => ay_c 1 | _ => match i with 0 => ay_c 3 | _ => ay_c 1 end end.
Definition ay_sg (x : nat * nat) : nat * nat := match x with (0, 0) => (0, 1) | (0, 1) => (1, 1) | (1, 1) => (0, 0) | _ => x end.
Definition ay_con (c i : nat) : K := lbl ay_w (fst (ay_sg (c, i))) (snd (ay_sg (c, i))).
Definition ay_cst (c i : nat) : K := match c with 0 => if i =? 0 then kone else kzero | 1 => ay_con 0 i | _ => ay_con 1 i end.
(* columns 6 and 7 are h1 and h2 of the lookup, 8, 9 and 10 the running products *)
Definition ay_x (u : K) : K := hor u [ay_c 1; ay_c 2].
Definition ay_y (u : K) : K := hor u [ay_c 3; ay_c 4].
Definition ay_h1 (u : K) (i : nat) : K := ay_x u.
Definition ay_h2 (u : K) (i : nat) : K := match i with 0 => ay_x u | _ => ay_y u end.
Definition ay_z (a d : K) (i : nat) : K := match i with 0 => kone | _ => kdiv a d end.
Definition ay_cm (u b g : K) (c i : nat) : K :=
  match c with
  | 0 => ay_c 1 | 1 => ay_c 2 | 2 => nth 0 (ay_T i) kzero | 3 => nth 1 (ay_T i) kzero | 4 => nth 0 (ay_R i) kzero | 5 => nth 1 (ay_R i) kzero
  | 6 => ay_h1 u i | 7 => ay_h2 u i
  | 8 => ay_z (kadd (kadd (ay_x u) (kmul (ay_y u) b)) (kmul g (kadd kone b))) (kmul (kadd kone b) (kadd (ay_x u) g)) i
  | 9 => ay_z (kadd (ay_x u) b) (kadd (ay_y u) b) i
  | _ => ay_z (kadd (pairv b (ay_c 1, lbl ay_w 0 0)) g) (kadd (pairv b (ay_c 1, lbl ay_w 0 1)) g) i
  end.
Definition ay_ch (u d g b : K) (c : nat) : K := match c with 0 => u | 1 => d | 2 => g | _ => b end.
Definition ay_rho (u d g b : K) := toy_rho 2 ay_w (ay_ch u d g b) (ay_cm u b g) ay_cst.
Lemma two i : i < 2 -> i = 0 \/ i = 1. Proof. lia. Qed.
Lemma ay_rows u d g b : rows 2 ay_w (Some 0) (ay_ch u d g b) (ay_rho u d g b).
Proof. apply toy_rows. intros i Hi. reflexivity. Qed.
Definition ay_tbl : list expr := a_exps (o_state ay_out).
Definition ay_base (j : nat) : expr := if j <? 6 then E_cm j false else E_const (j - 5) false.
Lemma ay_nth j : j < 8 -> nth_error ay_tbl j = Some (ay_base j).
Proof. intros H. do 8 (destruct j as [|j]; [vm_compute; reflexivity|]). lia. Qed.
Lemma ay_col u d g b j p i : j < 6 -> va ay_tbl (ay_rho u d g b i) p (E_exp j false) (ay_cm u b g j (at_row 2 p i)).
Proof. intros H. apply toy_cm. rewrite ay_nth by lia. unfold ay_base. rewrite (proj2 (Nat.ltb_lt j 6) H). reflexivity. Qed.
Lemma ay_lcol u d g b j i : j = 6 \/ j = 7 -> va ay_tbl (ay_rho u d g b i) false (E_exp j false) (ay_cst (j - 5) i).
Proof. intros H. apply (toy_cst 2 ay_w (ay_ch u d g b) (ay_cm u b g) ay_cst ay_tbl j (j - 5) false i). rewrite ay_nth by lia. unfold ay_base. destruct H as [-> | ->]; reflexivity. Qed.
Lemma ay_next p i : i < 2 -> at_row 2 p i = 0 \/ at_row 2 p i = 1.
Proof. intros H. apply two. destruct p; [apply nxt_lt; lia|exact H]. Qed.

Lemma ay_lookup_trace u d g b : lookup_trace (Some 0) ay_look ay_tbl 2 ay_w (ay_ch u d g b) (ay_rho u d g b) ay_F ay_T ay_one ay_one.
Proof.
  constructor.
  - apply ay_rows.
  - lia.
  - exists [0; 1]. split; [reflexivity|]. split; [discriminate|]. intros i Hi. constructor; [exact (ay_col u d g b 0 false i ltac:(lia))|]. constructor; [exact (ay_col u d g b 1 false i ltac:(lia))|constructor].
  - exists [2; 3]. split; [reflexivity|]. split; [discriminate|]. intros p i Hi.
    pose proof (ay_col u d g b 2 p i ltac:(lia)) as A. pose proof (ay_col u d g b 3 p i ltac:(lia)) as B.
    destruct (ay_next p i Hi) as [E|E]; rewrite E in *; (constructor; [exact A|constructor; [exact B|constructor]]).
  - intros i Hi. reflexivity.
  - intros p i Hi. reflexivity.
Qed.
Lemma ay_perm_trace u d g b : perm_trace (Some 0) ay_perm ay_tbl 2 ay_w (ay_ch u d g b) (ay_rho u d g b) ay_T ay_R ay_one ay_one.
Proof.
  constructor.
  - apply ay_rows.
  - lia.
  - exists [2; 3]. split; [reflexivity|]. split; [discriminate|]. intros i Hi. 
    pose proof (ay_col u d g b 2 false i ltac:(lia)) as A. pose proof (ay_col u d g b 3 false i ltac:(lia)) as B.
    destruct (ay_next false i Hi) as [E|E]; rewrite E in *; (constructor; [exact A|constructor; [exact B|constructor]]).
  - exists [4; 5]. split; [reflexivity|]. split; [discriminate|]. intros i Hi. 
    pose proof (ay_col u d g b 4 false i ltac:(lia)) as A. pose proof (ay_col u d g b 5 false i ltac:(lia)) as B.
    destruct (ay_next false i Hi) as [E|E]; rewrite E in *; (constructor; [exact A|constructor; [exact B|constructor]]).
  - intros i Hi. reflexivity.
  - intros i Hi. reflexivity.
Qed.
Lemma ay_conn_trace u d g b : conn_trace (Some 0) ay_conn ay_tbl 2 2 ay_w (ay_ch u d g b) (ay_rho u d g b) ay_p ay_con.
Proof.
  constructor.
  - apply ay_rows.
  - lia.
  - exists [0; 4], [6; 7]. split; [reflexivity|]. split; [reflexivity|]. split; [reflexivity|]. intros c Hc. destruct (two c Hc) as [-> | ->]; cbn [nth]; split; intros i Hi.
    + exact (ay_col u d g b 0 false i ltac:(lia)).
    + exact (ay_lcol u d g b 6 i ltac:(lia)).
    + pose proof (ay_col u d g b 4 false i ltac:(lia)) as A. cbn [at_row] in A. destruct (two i Hi) as [-> | ->]; exact A.
    + exact (ay_lcol u d g b 7 i ltac:(lia)).
Qed.
Lemma ay_nz a b : ~ In a [kneg b] -> kadd b a <> kzero.
Proof. intros N E. apply N. left. transitivity (kadd (kneg b) (kadd b a)); [rewrite E; ring|ring]. Qed.

Lemma ay_lookup_ok u d g b : kadd kone b <> kzero -> kadd (ay_x u) g <> kzero -> lookup_passes (Some 0) ay_look ay_q1 ay_tbl 2 ay_w ay_F ay_T ay_one ay_one u d (ay_h1 u) (ay_h2 u) b g.
Proof.
  intros N1 N2. exists (ay_ch u d g b), (ay_rho u d g b). split; [reflexivity|]. split; [reflexivity|]. split; [reflexivity|]. split; [reflexivity|].
  split; [apply ay_lookup_trace|]. split.
  - intros i Hi. unfold ay_rho. rewrite !toy_cmcol. split; reflexivity.
  - destruct ay_run as [E2 E3]. destruct (lookup_meaning 20 (Some 0) ay_s [ay_look] ay_s2 ay_pu ay_code [ay_perm] [ay_conn] ay_out E2 E3 0 ay_look eq_refl) as [q [Eq [_ [_ ME]]]].
    rewrite (proj1 ay_qs) in Eq. assert (q = ay_q1) by (symmetry; injection Eq as H; exact H). subst q.
    specialize (ME ay_tbl 2 ay_w _ _ _ _ _ _ (pre_refl _) (ay_lookup_trace u d g b)). cbv zeta in ME. apply (proj2 (proj2 (proj2 (proj2 (proj2 ME))))). 
    split; [unfold ay_rho; rewrite toy_cmcol; reflexivity|]. intros i Hi. unfold ay_rho. rewrite !toy_cmcol.
    assert (S1 : forall x d, sel kone x d = x) by (intros; apply sel_1).
    unfold lk_num, lk_den, lk_f, lk_t, ay_one. rewrite !S1, !toy_cmcol. cbn [ay_ch q_h1 q_h2 q_z ay_q1].
    destruct (two i Hi) as [-> | ->].
    + change (nxt 2 0) with 1. change (hor u (ay_F 0)) with (ay_x u). change (hor u (ay_T 0)) with (ay_x u). change (hor u (ay_T 1)) with (ay_y u).
      cbn [ay_cm ay_h1 ay_h2 ay_z]. unfold ay_h1. revert N1 N2. generalize (ay_x u) (ay_y u). intros x y N1 N2. field. split; assumption.
    + change (nxt 2 1) with 0. change (hor u (ay_F 1)) with (ay_x u). change (hor u (ay_T 0)) with (ay_x u). change (hor u (ay_T 1)) with (ay_y u).
      cbn [ay_cm ay_h1 ay_h2 ay_z]. unfold ay_h1. revert N1 N2. generalize (ay_x u) (ay_y u). intros x y N1 N2. field. split; assumption.
Qed.
Lemma ay_perm_ok u d b : kadd (ay_y u) b <> kzero -> perm_passes (Some 0) ay_perm ay_q2 ay_tbl 2 ay_w ay_T ay_R ay_one ay_one u d b.
Proof.
  intros N1. exists (ay_ch u d kzero b), (ay_rho u d kzero b). split; [reflexivity|]. split; [reflexivity|]. split; [reflexivity|]. 
  split; [apply ay_perm_trace|].
  destruct ay_run as [E2 E3]. destruct (perm_meaning 20 (Some 0) ay_s [ay_look] ay_s2 ay_pu ay_code [ay_perm] [ay_conn] ay_out E2 E3 0 ay_perm eq_refl) as [q [Eq [_ [_ ME]]]].
  rewrite (proj1 (proj2 ay_qs)) in Eq. assert (q = ay_q2) by (symmetry; injection Eq as H; exact H). subst q.
  specialize (ME ay_tbl 2 ay_w _ _ _ _ _ _ (pre_refl _) (ay_perm_trace u d kzero b)). cbv zeta in ME. apply (proj2 (proj2 (proj2 (proj2 (proj2 ME))))). 
  split; [unfold ay_rho; rewrite toy_cmcol; reflexivity|]. intros i Hi. unfold ay_rho. rewrite !toy_cmcol.
  assert (S1 : forall x d, sel kone x d = x) by (intros; apply sel_1).
  unfold pm, ay_one. rewrite !S1. cbn [ay_ch q_z ay_q2].
  destruct (two i Hi) as [-> | ->].
  - change (nxt 2 0) with 1. change (hor u (ay_R 0)) with (ay_y u). change (hor u (ay_T 0)) with (ay_x u). 
    cbn [ay_cm ay_z]. revert N1. generalize (ay_x u) (ay_y u). intros x y N1. field. assumption.
  - change (nxt 2 1) with 0. change (hor u (ay_R 1)) with (ay_x u). change (hor u (ay_T 1)) with (ay_y u).
    cbn [ay_cm ay_z]. revert N1. generalize (ay_x u) (ay_y u). intros x y N1. field. assumption.
Qed.
Lemma ay_conn_ok g b : kadd (pairv b (ay_c 1, lbl ay_w 0 1)) g <> kzero -> conn_passes (Some 0) ay_conn ay_q3 ay_tbl 2 2 ay_w ay_p ay_con b g.
Proof.
  intros N1. exists (ay_ch kzero kzero g b), (ay_rho kzero kzero g b). split; [reflexivity|]. split; [reflexivity|].
  split; [apply ay_conn_trace|].
  destruct ay_run as [E2 E3]. destruct (conn_meaning 20 (Some 0) ay_s [ay_look] ay_s2 ay_pu ay_code [ay_perm] [ay_conn] ay_out E2 E3 0 ay_conn eq_refl) as [q [Eq [_ [_ ME]]]].
  rewrite (proj2 (proj2 ay_qs)) in Eq. assert (q = ay_q3) by (symmetry; injection Eq as H; exact H). subst q.
  specialize (ME ay_tbl 2 2 ay_w _ _ _ _ (pre_refl _) (ay_conn_trace kzero kzero g b)). cbv zeta in ME. apply (proj2 (proj2 (proj2 ME))). 
  split; [unfold ay_rho; rewrite toy_cmcol; reflexivity|]. intros i Hi. unfold ay_rho. rewrite !toy_cmcol.
  unfold cn, ay_con. cbn [ay_ch q_z ay_q3 seq map kprod]. 
  destruct (two i Hi) as [-> | ->].
  - change (nxt 2 0) with 1. cbn [ay_cm ay_z ay_p ay_sg fst snd]. revert N1. generalize (lbl ay_w 0 0) (lbl ay_w 0 1) (lbl ay_w 1 0) (lbl ay_w 1 1) (ay_c 1) (ay_c 3).
    unfold pairv. cbn [fst snd]. intros l00 l01 l10 l11 x y N1. field. assumption.
  - change (nxt 2 1) with 0. cbn [ay_cm ay_z ay_p ay_sg fst snd]. revert N1. generalize (lbl ay_w 0 0) (lbl ay_w 0 1) (lbl ay_w 1 0) (lbl ay_w 1 1) (ay_c 1) (ay_c 3).
    unfold pairv. cbn [fst snd]. intros l00 l01 l10 l11 x y N1. field. assumption.
Qed.
Lemma ay_lookup_many : many (2 * 2 * (2 - 1)) (fun u => many 2 (fun d => exists h1 h2, many (1 + 4 * 2 * 2) (fun b => many (2 * 2) (fun g =>
  lookup_passes (Some 0) ay_look ay_q1 ay_tbl 2 ay_w ay_F ay_T ay_one ay_one u d h1 h2 b g)))).
Proof.
  apply (many_except _ _ []); [cbn [length]; lia|]. intros u _. apply (many_except _ _ []); [cbn [length]; lia|]. intros d _. exists (ay_h1 u), (ay_h2 u).
  apply (many_except _ _ [kneg kone]); [cbn [length]; lia|]. intros b Nb. apply (many_except _ _ [kneg (ay_x u)]); [cbn [length]; lia|]. intros g Ng.
  apply ay_lookup_ok; apply ay_nz; assumption.
Qed.
Lemma ay_perm_many : many (2 * 2 * (2 - 1)) (fun u => many (2 * 2) (fun d => many 2 (fun b => perm_passes (Some 0) ay_perm ay_q2 ay_tbl 2 ay_w ay_T ay_R ay_one ay_one u d b))).
Proof.
  apply (many_except _ _ []); [cbn [length]; lia|]. intros u _. apply (many_except _ _ []); [cbn [length]; lia|]. intros d _.
  apply (many_except _ _ [kneg (ay_y u)]); [cbn [length]; lia|]. intros b Nb. apply ay_perm_ok; apply ay_nz; assumption.
Qed.
Lemma ay_conn_many : many (2 * 2 * (2 * 2)) (fun b => many (2 * 2) (fun g => conn_passes (Some 0) ay_conn ay_q3 ay_tbl 2 2 ay_w ay_p ay_con b g)).
Proof.
  apply (many_except _ _ []); [cbn [length]; lia|]. intros b _.
  apply (many_except _ _ [kneg (pairv b (ay_c 1, lbl ay_w 0 1))]); [cbn [length]; lia|]. intros g Ng. apply ay_conn_ok; apply ay_nz; assumption.
Qed.

(* ---- the columns an honest prover computes ---- *)
Definition ay_5 : K := ay_c 5.
Definition ay_list (a : nat -> K) : list F3G := [of_k (a 0); of_k (a 1)].
Lemma ay_list_nth a i : i < 2 -> val (nth i (ay_list a) e_ZERO) = a i.
Proof. intros H. destruct (two i H) as [-> | ->]; cbn [nth ay_list]; apply of_k_val. Qed.
Lemma ay_sorted : calculate_H1H2 (ay_list (fun _ => ay_x ay_5)) (ay_list (ay_h2 ay_5)) = Ok (ay_list (ay_h1 ay_5), ay_list (ay_h2 ay_5)).
Proof. vm_compute. reflexivity. Qed.
Definition ay_r5 := ay_rho ay_5 ay_5 ay_5 ay_5.
Lemma ay_lookup_honest : exists f t h1 h2 num den : list F3G, length f = 2 /\ length t = 2 /\ length num = 2 /\ length den = 2 /\
  (forall i, i < 2 -> va ay_tbl (ay_r5 i) false (E_exp (q_f ay_q1) false) (val (nth i f e_ZERO)) /\ va ay_tbl (ay_r5 i) false (E_exp (q_t ay_q1) false) (val (nth i t e_ZERO)) /\
    va ay_tbl (ay_r5 i) false (E_exp (q_num ay_q1) false) (val (nth i num e_ZERO)) /\ va ay_tbl (ay_r5 i) false (E_exp (q_den ay_q1) false) (val (nth i den e_ZERO)) /\
    cmcol ay_r5 (q_h1 ay_q1) i = val (nth i h1 e_ZERO) /\ cmcol ay_r5 (q_h2 ay_q1) i = val (nth i h2 e_ZERO)) /\
  calculate_H1H2 f t = Ok (h1, h2).
Proof.
  destruct ay_run as [E2 E3]. destruct (lookup_meaning 20 (Some 0) ay_s [ay_look] ay_s2 ay_pu ay_code [ay_perm] [ay_conn] ay_out E2 E3 0 ay_look eq_refl) as [q [Eq [_ [_ ME]]]].
  rewrite (proj1 ay_qs) in Eq. assert (q = ay_q1) by (symmetry; injection Eq as H; exact H). subst q.
  specialize (ME ay_tbl 2 ay_w _ _ _ _ _ _ (pre_refl _) (ay_lookup_trace ay_5 ay_5 ay_5 ay_5)). cbv zeta in ME. destruct ME as [CF [CT [CN [CD _]]]].
  assert (S1 : forall x d, sel kone x d = x) by (intros; apply sel_1).
  eexists (ay_list (fun _ => ay_x ay_5)), (ay_list (ay_h2 ay_5)), (ay_list (ay_h1 ay_5)), (ay_list (ay_h2 ay_5)), (ay_list _), (ay_list _).
  split; [reflexivity|]. split; [reflexivity|]. split; [reflexivity|]. split; [reflexivity|]. split; [|exact ay_sorted].
  intros i Hi. rewrite !ay_list_nth by exact Hi. split; [|split; [|split; [exact (CN i Hi)|split; [exact (CD i Hi)|split]]]].
  - eapply va_eq; [exact (CF i Hi)|]. unfold lk_f, ay_one. rewrite S1. reflexivity.
  - eapply va_eq; [exact (CT i Hi)|]. unfold lk_t, ay_one. rewrite S1. destruct (two i Hi) as [-> | ->]; reflexivity.
  - unfold ay_r5, ay_rho. rewrite toy_cmcol. reflexivity.
  - unfold ay_r5, ay_rho. rewrite toy_cmcol. reflexivity.
Qed.
Lemma ay_perm_honest : (forall i, i < 2 -> bit (ay_one i) /\ bit (ay_one i)) /\
  Permutation (map ay_T (filter (fun i => isone (ay_one i)) (seq 0 2))) (map ay_R (filter (fun i => isone (ay_one i)) (seq 0 2))) /\
  exists num den : list F3G, length num = 2 /\ length den = 2 /\
  (forall i, i < 2 -> va ay_tbl (ay_r5 i) false (E_exp (q_num ay_q2) false) (val (nth i num e_ZERO)) /\ va ay_tbl (ay_r5 i) false (E_exp (q_den ay_q2) false) (val (nth i den e_ZERO))).
Proof.
  split; [intros i Hi; split; right; reflexivity|].
  assert (Eo : isone kone = true) by (apply isone_1; reflexivity).
  split; [unfold ay_one; cbn [seq filter]; rewrite Eo; cbn [map ay_T ay_R]; apply perm_swap|].
  destruct ay_run as [E2 E3]. destruct (perm_meaning 20 (Some 0) ay_s [ay_look] ay_s2 ay_pu ay_code [ay_perm] [ay_conn] ay_out E2 E3 0 ay_perm eq_refl) as [q [Eq [_ [_ ME]]]].
  rewrite (proj1 (proj2 ay_qs)) in Eq. assert (q = ay_q2) by (symmetry; injection Eq as H; exact H). subst q.
  specialize (ME ay_tbl 2 ay_w _ _ _ _ _ _ (pre_refl _) (ay_perm_trace ay_5 ay_5 ay_5 ay_5)). cbv zeta in ME. destruct ME as [_ [_ [CN [CD _]]]].
  eexists (ay_list _), (ay_list _). split; [reflexivity|]. split; [reflexivity|]. intros i Hi. rewrite !ay_list_nth by exact Hi. split; [exact (CN i Hi)|exact (CD i Hi)].
Qed.
Lemma ay_conn_honest :
  (forall x, fst x < 2 /\ snd x < 2 -> fst (ay_sg x) < 2 /\ snd (ay_sg x) < 2) /\
  (forall x y, fst x < 2 /\ snd x < 2 -> fst y < 2 /\ snd y < 2 -> ay_sg x = ay_sg y -> x = y) /\
  (forall c i, c < 2 -> i < 2 -> ay_con c i = lbl ay_w (fst (ay_sg (c, i))) (snd (ay_sg (c, i))) /\ ay_p c i = ay_p (fst (ay_sg (c, i))) (snd (ay_sg (c, i)))) /\
  exists num den : list F3G, length num = 2 /\ length den = 2 /\
  (forall i, i < 2 -> va ay_tbl (ay_r5 i) false (E_exp (q_num ay_q3) false) (val (nth i num e_ZERO)) /\ va ay_tbl (ay_r5 i) false (E_exp (q_den ay_q3) false) (val (nth i den e_ZERO))).
Proof.
  split; [|split; [|split]].
  - intros [c i] [Hc Hi]. cbn [fst snd] in *. destruct (two c Hc) as [-> | ->], (two i Hi) as [-> | ->]; cbn [ay_sg fst snd]; lia.
  - intros [c i] [d j] [Hc Hi] [Hd Hj]. cbn [fst snd] in *. destruct (two c Hc) as [-> | ->], (two i Hi) as [-> | ->], (two d Hd) as [-> | ->], (two j Hj) as [-> | ->]; cbn [ay_sg]; congruence.
  - intros c i Hc Hi. split; [reflexivity|]. destruct (two c Hc) as [-> | ->], (two i Hi) as [-> | ->]; reflexivity.
  - destruct ay_run as [E2 E3]. destruct (conn_meaning 20 (Some 0) ay_s [ay_look] ay_s2 ay_pu ay_code [ay_perm] [ay_conn] ay_out E2 E3 0 ay_conn eq_refl) as [q [Eq [_ [_ ME]]]].
    rewrite (proj2 (proj2 ay_qs)) in Eq. assert (q = ay_q3) by (symmetry; injection Eq as H; exact H). subst q.
    specialize (ME ay_tbl 2 2 ay_w _ _ _ _ (pre_refl _) (ay_conn_trace ay_5 ay_5 ay_5 ay_5)). cbv zeta in ME. destruct ME as [CN [CD _]].
    eexists (ay_list _), (ay_list _). split; [reflexivity|]. split; [reflexivity|]. intros i Hi. rewrite !ay_list_nth by exact Hi. split; [exact (CN i Hi)|exact (CD i Hi)].
Qed.

Lemma ay_lookup_shape : forall i, i < 2 -> length (ay_F i) = 2 /\ length (ay_T i) = 2 /\ bit (ay_one i) /\ bit (ay_one i).
Proof. intros i Hi. destruct (two i Hi) as [-> | ->]; (split; [reflexivity|]; split; [reflexivity|]; split; right; reflexivity). Qed.
Lemma ay_perm_shape : forall i, i < 2 -> length (ay_T i) = 2 /\ length (ay_R i) = 2 /\ bit (ay_one i) /\ bit (ay_one i).
Proof. intros i Hi. destruct (two i Hi) as [-> | ->]; (split; [reflexivity|]; split; [reflexivity|]; split; right; reflexivity). Qed.
