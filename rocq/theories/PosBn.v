(* The optimised Poseidon of BN254 is the textbook one at every width of the source. *)
From Verif Require Import Base ListAux HashModel AvxModel PosModel PosRing PosOpt ZqField PosHom PosBig PosBnModel.
From Bignums Require Import BigZ.
From Verif Require Import BnTabA BnTabB BnTabC BnTabD BnChkA BnChkB BnChkC BnChkD.
Open Scope nat_scope.
Open Scope res_scope.

Opaque bn_c2 bn_m2 bn_C2 bn_S2 bn_M2 bn_P2.
Opaque bn_c3 bn_m3 bn_C3 bn_S3 bn_M3 bn_P3.
Opaque bn_c4 bn_m4 bn_C4 bn_S4 bn_M4 bn_P4.
Opaque bn_c5 bn_m5 bn_C5 bn_S5 bn_M5 bn_P5.
Opaque bn_c6 bn_m6 bn_C6 bn_S6 bn_M6 bn_P6.
Opaque bn_c7 bn_m7 bn_C7 bn_S7 bn_M7 bn_P7.
Opaque bn_c8 bn_m8 bn_C8 bn_S8 bn_M8 bn_P8.
Opaque bn_c9 bn_m9 bn_C9 bn_S9 bn_M9 bn_P9.
Opaque bn_c10 bn_m10 bn_C10 bn_S10 bn_M10 bn_P10.
Opaque bn_c11 bn_m11 bn_C11 bn_S11 bn_M11 bn_P11.
Opaque bn_c12 bn_m12 bn_C12 bn_S12 bn_M12 bn_P12.
Opaque bn_c13 bn_m13 bn_C13 bn_S13 bn_M13 bn_P13.
Opaque bn_c14 bn_m14 bn_C14 bn_S14 bn_M14 bn_P14.
Opaque bn_c15 bn_m15 bn_C15 bn_S15 bn_M15 bn_P15.
Opaque bn_c16 bn_m16 bn_C16 bn_S16 bn_M16 bn_P16.
Opaque bn_c17 bn_m17 bn_C17 bn_S17 bn_M17 bn_P17.

Record wt : Type := mkW { w_np : nat; w_t : nat; w_c : list Z; w_m : list (list Z); w_C : list Z; w_S : list Z; w_M : list (list Z); w_P : list (list Z) }.
Definition wgood (w : wt) : Prop := bcheck bn_q 4 (w_np w) (w_t w) (w_c w) (w_m w) (w_C w) (w_S w) (w_M w) (w_P w) = true.
Lemma from_hex_ok q l : lits q l = true -> load1 q l = Ok (map (zq_of q) l).
Proof.
  unfold load1, lits. induction l as [|v l IH]; intros H; [reflexivity|]. cbn [forallb mapM map] in *. apply andb_prop in H. destruct H as [V H].
  unfold from_hex. unfold lit in V. apply andb_prop in V. destruct V as [_ V]. rewrite V. cbn [bind]. unfold from_hex in IH. rewrite (IH H). reflexivity.
Qed.
Lemma from_hex_ok2 q m : forallb (lits q) m = true -> load2 q m = Ok (map (map (zq_of q)) m).
Proof.
  unfold load2. induction m as [|v l IH]; intros H; [reflexivity|]. cbn [forallb mapM map] in *. apply andb_prop in H. destruct H as [V H].
  rewrite (from_hex_ok q v V). cbn [bind]. rewrite (IH H). reflexivity.
Qed.

Lemma vget_map_at {X Y} (g : X -> Y) l i x : nth_error l i = Some x -> vget (map g l) i = Ok (g x).
Proof. intros E. unfold vget. rewrite nth_error_map, E. reflexivity. Qed.
Lemma qq : bn_r = bn_q. Proof. reflexivity. Qed.
Notation O1 := (map (zq_of bn_r)) (only parsing).
Notation pref := (permute_ref BnFr (zq_of bn_r 0) q_add q_mul (pow5 q_mul)).
Notation popt := (permute_opt BnFr (zq_of bn_r 0) q_add q_mul (pow5 q_mul)).
Lemma width_eq w n st : wgood w -> w_t w = 1 + n -> 1 <= w_np w -> length st = 1 + n ->
  popt 8 (w_np w) (O1 (w_C w)) (O1 (w_S w)) (map O1 (w_M w)) (map O1 (w_P w)) st = pref 8 (w_np w) (O1 (w_c w)) (map O1 (w_m w)) st /\
  exists r, pref 8 (w_np w) (O1 (w_c w)) (map O1 (w_m w)) st = Ok r /\ length r = 1 + n.
Proof.
  intros G T N L. unfold wgood in G. rewrite T in G. apply bcheck_ok in G. destruct G as (ZL & _ & OB). rewrite <- qq in OB.
  exact (checked bn_r 4 (w_np w) n (w_c w) (w_m w) (w_C w) (w_S w) (w_M w) (w_P w) (pow5 q_mul) ltac:(lia) N ZL OB st L).
Qed.

(* the functions of PosBnModel with the tables as arguments *)
Definition load_ref (c : list (list Z)) (m : list (list (list Z))) (np : list nat) : res (pconsts BnFr) :=
  do c <- mapM (load1 bn_r) c; do m <- mapM (load2 bn_r) m; Ok (mkPC c m [] [] 8 np).
Definition load_opt (c : list (list Z)) (m p : list (list (list Z))) (s : list (list Z)) (np : list nat) : res (pconsts BnFr) :=
  do c <- mapM (load1 bn_r) c; do m <- mapM (load2 bn_r) m; do p <- mapM (load2 bn_r) p; do s <- mapM (load1 bn_r) s; Ok (mkPC c m p s 8 np).
Definition h_ref k inp init out := hash_ref BnFr (zq_of bn_r 0) q_add q_mul (pow5 q_mul) k inp init out.
Definition h_opt k inp init out := hash_opt BnFr (zq_of bn_r 0) q_add q_mul (pow5 q_mul) k inp init out.

Section All.
Variable all : list wt.
Hypothesis GA : Forall wgood all.
Hypothesis NA : Forall (fun w => 1 <= w_np w) all.
Hypothesis LA : length all = 16.
Hypothesis TA : map w_t all = seq 2 16.
Notation kr := (mkPC (map O1 (map w_c all)) (map (map O1) (map w_m all)) [] [] 8 (map w_np all)).
Notation ko := (mkPC (map O1 (map w_C all)) (map (map O1) (map w_M all)) (map (map O1) (map w_P all)) (map O1 (map w_S all)) 8 (map w_np all)).

Lemma mapM_all {X} (p : wt -> X) {Y} (load : X -> res Y) (g : X -> Y) : (forall w, wgood w -> load (p w) = Ok (g (p w))) ->
  mapM load (map p all) = Ok (map g (map p all)).
Proof.
  intros H. clear NA LA TA. induction GA as [|w l GW G IH]; [reflexivity|]. cbn [map mapM]. rewrite (H w GW), (IH G). reflexivity.
Qed.
Lemma load_c (p : wt -> list Z) : (forall w, wgood w -> lits bn_q (p w) = true) -> mapM (load1 bn_r) (map p all) = Ok (map O1 (map p all)).
Proof. intros H. apply (mapM_all p (load1 bn_r) O1). intros w G. apply from_hex_ok. rewrite qq. apply H. exact G. Qed.
Lemma load_m (p : wt -> list (list Z)) : (forall w, wgood w -> forallb (lits bn_q) (p w) = true) -> mapM (load2 bn_r) (map p all) = Ok (map (map O1) (map p all)).
Proof. intros H. apply (mapM_all p (load2 bn_r) (map O1)). intros w G. apply from_hex_ok2. rewrite qq. apply H. exact G. Qed.
Lemma load_ref_ok : load_ref (map w_c all) (map w_m all) (map w_np all) = Ok kr.
Proof.
  unfold load_ref. rewrite load_c by (intros w G; apply bcheck_ok in G; tauto). rewrite load_m by (intros w G; apply bcheck_ok in G; tauto). reflexivity.
Qed.
Lemma load_opt_ok : load_opt (map w_C all) (map w_M all) (map w_P all) (map w_S all) (map w_np all) = Ok ko.
Proof.
  unfold load_opt. rewrite (load_c w_C) by (intros w G; apply bcheck_ok in G; tauto). rewrite (load_m w_M) by (intros w G; apply bcheck_ok in G; tauto).
  rewrite (load_m w_P) by (intros w G; apply bcheck_ok in G; tauto). rewrite (load_c w_S) by (intros w G; apply bcheck_ok in G; tauto). reflexivity.
Qed.
Lemma width i : i < 16 -> exists w, nth_error all i = Some w /\ wgood w /\ w_t w = 1 + S i /\ 1 <= w_np w.
Proof.
  intros L. destruct (nth_error all i) as [w|] eqn:E; [|apply nth_error_None in E; rewrite LA in E; lia].
  exists w. pose proof (nth_error_In _ _ E) as I. split; [reflexivity|]. split; [exact (proj1 (Forall_forall _ _) GA w I)|].
  split; [|exact (proj1 (Forall_forall _ _) NA w I)].
  assert (T : nth_error (map w_t all) i = Some (w_t w)) by (rewrite nth_error_map, E; reflexivity).
  rewrite TA in T. apply (nth_error_nth _ _ 0) in T. rewrite seq_nth in T by exact L. lia.
Qed.
Lemma all_bad inp init out : inp = [] \/ 16 < length inp -> h_ref kr inp init out = Err /\ h_opt ko inp init out = Err.
Proof.
  intros H. unfold h_ref, h_opt, hash_ref, hash_opt. cbn [pc_np]. rewrite map_length, LA.
  assert (B : (length inp =? 0) || (16 <? length inp) = true).
  { destruct H as [->|H]; [reflexivity|]. apply Bool.orb_true_iff. right. apply Nat.ltb_lt. exact H. }
  rewrite B. split; reflexivity.
Qed.
Lemma all_good inp init out : 1 <= length inp -> length inp <= 16 -> exists r, length r = 1 + length inp /\
  h_ref kr inp init out = take_out BnFr r out /\ h_opt ko inp init out = take_out BnFr r out.
Proof.
  intros L1 L2. unfold h_ref, h_opt, hash_ref, hash_opt. cbn [pc_np pc_c pc_m pc_p pc_s pc_nf]. rewrite map_length, LA.
  replace ((length inp =? 0) || (16 <? length inp)) with false.
  2:{ symmetry. apply Bool.orb_false_iff. split; [apply Nat.eqb_neq; lia|apply Nat.ltb_ge; lia]. }
  cbv zeta. destruct (width (length inp + 1 - 2) ltac:(lia)) as (w & E & G & T & N).
  rewrite !map_map. rewrite !(vget_map_at _ _ _ _ E). cbn [bind].
  assert (T' : w_t w = 1 + length inp) by lia.
  destruct (width_eq w (length inp) (init :: inp) G T' N eq_refl) as (EQ & r & R & LR).
  exists r. split; [exact LR|]. rewrite EQ, R. split; reflexivity.
Qed.
Lemma all_outcomes inp init out : let r := bind (load_ref (map w_c all) (map w_m all) (map w_np all)) (fun k => h_ref k inp init out) in
  bind (load_opt (map w_C all) (map w_M all) (map w_P all) (map w_S all) (map w_np all)) (fun k => h_opt k inp init out) = r /\
  ((inp = [] \/ 16 < length inp) -> r = Err) /\
  (1 <= length inp <= 16 -> out <= 1 + length inp -> exists l, r = Ok l /\ length l = out) /\
  (1 <= length inp <= 16 -> 1 + length inp < out -> r = Panic).
Proof.
  intros r. unfold r. clear r. rewrite load_ref_ok, load_opt_ok. cbn [bind]. split; [|split; [|split]].
  - destruct (Nat.eq_dec (length inp) 0) as [Z|Z].
    + destruct (all_bad inp init out) as [-> ->]; [left; destruct inp; [reflexivity|discriminate Z]|reflexivity].
    + destruct (Nat.le_gt_cases (length inp) 16) as [L|L].
      * destruct (all_good inp init out ltac:(lia) L) as (r & _ & -> & ->). reflexivity.
      * destruct (all_bad inp init out (or_intror L)) as [-> ->]. reflexivity.
  - intros H. exact (proj1 (all_bad inp init out H)).
  - intros [L1 L2] O. destruct (all_good inp init out L1 L2) as (r & LR & -> & _). unfold take_out. rewrite slice_ok by lia.
    eexists. split; [reflexivity|]. cbn [skipn]. rewrite firstn_length. lia.
  - intros [L1 L2] O. destruct (all_good inp init out L1 L2) as (r & LR & -> & _). unfold take_out, slice.
    replace (0 + out <=? length r) with false by (symmetry; apply Nat.leb_gt; lia). reflexivity.
Qed.
(* evaluation on a literal input *)
Lemma all_eval w n inp init out b : nth_error all (n - 1) = Some w -> length inp = n -> 1 <= n <= 16 ->
  permute_ref BigZ.t BigZ.zero (b_add bn_r) (b_mul bn_r) (pow5 (b_mul bn_r)) 8 (w_np w) (map BigZ.of_Z (w_c w)) (map (map BigZ.of_Z) (w_m w)) (map BigZ.of_Z (init :: inp)) = Ok b ->
  bind (load_ref (map w_c all) (map w_m all) (map w_np all)) (fun k => h_ref k (O1 inp) (zq_of bn_r init) out) = take_out BnFr (map (bof bn_r) b) out.
Proof.
  intros E L N B. rewrite load_ref_ok. cbn [bind]. unfold h_ref, hash_ref. cbn [pc_np pc_c pc_m pc_p pc_s pc_nf]. rewrite !map_length, LA, L.
  replace ((n =? 0) || (16 <? n)) with false.
  2:{ symmetry. apply Bool.orb_false_iff. split; [apply Nat.eqb_neq; lia|apply Nat.ltb_ge; lia]. }
  cbv zeta. replace (n + 1 - 2) with (n - 1) by lia. rewrite !map_map. rewrite !(vget_map_at _ _ _ _ E). cbn [bind].
  change (zq_of bn_r init :: O1 inp) with (O1 (init :: inp)).
  rewrite (ev_ref_q bn_r 8 (w_np w) (w_c w) (w_m w) (init :: inp) b B). reflexivity.
Qed.
End All.

Definition bn_all : list wt :=
  [mkW 56 2 bn_c2 bn_m2 bn_C2 bn_S2 bn_M2 bn_P2;
   mkW 57 3 bn_c3 bn_m3 bn_C3 bn_S3 bn_M3 bn_P3;
   mkW 56 4 bn_c4 bn_m4 bn_C4 bn_S4 bn_M4 bn_P4;
   mkW 60 5 bn_c5 bn_m5 bn_C5 bn_S5 bn_M5 bn_P5;
   mkW 60 6 bn_c6 bn_m6 bn_C6 bn_S6 bn_M6 bn_P6;
   mkW 63 7 bn_c7 bn_m7 bn_C7 bn_S7 bn_M7 bn_P7;
   mkW 64 8 bn_c8 bn_m8 bn_C8 bn_S8 bn_M8 bn_P8;
   mkW 63 9 bn_c9 bn_m9 bn_C9 bn_S9 bn_M9 bn_P9;
   mkW 60 10 bn_c10 bn_m10 bn_C10 bn_S10 bn_M10 bn_P10;
   mkW 66 11 bn_c11 bn_m11 bn_C11 bn_S11 bn_M11 bn_P11;
   mkW 60 12 bn_c12 bn_m12 bn_C12 bn_S12 bn_M12 bn_P12;
   mkW 65 13 bn_c13 bn_m13 bn_C13 bn_S13 bn_M13 bn_P13;
   mkW 70 14 bn_c14 bn_m14 bn_C14 bn_S14 bn_M14 bn_P14;
   mkW 60 15 bn_c15 bn_m15 bn_C15 bn_S15 bn_M15 bn_P15;
   mkW 64 16 bn_c16 bn_m16 bn_C16 bn_S16 bn_M16 bn_P16;
   mkW 68 17 bn_c17 bn_m17 bn_C17 bn_S17 bn_M17 bn_P17].
Lemma bn_all_good : Forall wgood bn_all.
Proof.
  constructor; [exact bn_ok2|].
  constructor; [exact bn_ok3|].
  constructor; [exact bn_ok4|].
  constructor; [exact bn_ok5|].
  constructor; [exact bn_ok6|].
  constructor; [exact bn_ok7|].
  constructor; [exact bn_ok8|].
  constructor; [exact bn_ok9|].
  constructor; [exact bn_ok10|].
  constructor; [exact bn_ok11|].
  constructor; [exact bn_ok12|].
  constructor; [exact bn_ok13|].
  constructor; [exact bn_ok14|].
  constructor; [exact bn_ok15|].
  constructor; [exact bn_ok16|].
  constructor; [exact bn_ok17|].
  constructor.
Qed.
Lemma all_c : bn_c_str = map w_c bn_all. Proof. reflexivity. Qed.
Lemma all_m : bn_m_str = map w_m bn_all. Proof. reflexivity. Qed.
Lemma all_C : bn_C_str = map w_C bn_all. Proof. reflexivity. Qed.
Lemma all_S : bn_S_str = map w_S bn_all. Proof. reflexivity. Qed.
Lemma all_M : bn_M_str = map w_M bn_all. Proof. reflexivity. Qed.
Lemma all_P : bn_P_str = map w_P bn_all. Proof. reflexivity. Qed.
Lemma all_np : bn_rounds_p = map w_np bn_all. Proof. reflexivity. Qed.
Lemma all_len : length bn_all = 16. Proof. reflexivity. Qed.
Lemma all_t : map w_t bn_all = seq 2 16. Proof. reflexivity. Qed.
Lemma all_np1 : Forall (fun w => 1 <= w_np w) bn_all. Proof. unfold bn_all. repeat constructor. Qed.


Lemma bn_hash_form inp init out : bn_hash_ex inp init out = bind (load_ref (map w_c bn_all) (map w_m bn_all) (map w_np bn_all)) (fun k => h_ref k inp init out).
Proof. rewrite <- all_c, <- all_m, <- all_np. reflexivity. Qed.
Lemma bn_opt_form inp init out : bn_opt_hash_ex inp init out =
  bind (load_opt (map w_C bn_all) (map w_M bn_all) (map w_P bn_all) (map w_S bn_all) (map w_np bn_all)) (fun k => h_opt k inp init out).
Proof. rewrite <- all_C, <- all_M, <- all_P, <- all_S, <- all_np. reflexivity. Qed.
Definition bn_facts := all_outcomes bn_all bn_all_good all_np1 all_len all_t.

Theorem bn_opt_is_ref inp init out : bn_opt_hash_ex inp init out = bn_hash_ex inp init out.
Proof. refine (eq_trans (bn_opt_form inp init out) (eq_trans _ (eq_sym (bn_hash_form inp init out)))). exact (proj1 (bn_facts inp init out)). Qed.
Theorem bn_hash_eq inp init : bn_opt_hash inp init = bn_hash inp init.
Proof. unfold bn_opt_hash, bn_hash. rewrite bn_opt_is_ref. reflexivity. Qed.
Theorem bn_outcomes inp init out :
  ((inp = [] \/ 16 < length inp) -> bn_hash_ex inp init out = Err) /\
  (1 <= length inp <= 16 -> out <= 1 + length inp -> exists r, bn_hash_ex inp init out = Ok r /\ length r = out) /\
  (1 <= length inp <= 16 -> 1 + length inp < out -> bn_hash_ex inp init out = Panic).
Proof. rewrite bn_hash_form. exact (proj2 (bn_facts inp init out)). Qed.

(* the literal inputs of the source's tests (poseidon_bn128_opt.rs:240-250) *)
Definition ex_b (w : wt) (inp : list Z) := permute_ref BigZ.t BigZ.zero (b_add bn_r) (b_mul bn_r) (pow5 (b_mul bn_r)) 8 (w_np w)
  (map BigZ.of_Z (w_c w)) (map (map BigZ.of_Z) (w_m w)) (map BigZ.of_Z (0%Z :: inp)).
Definition bn_w2 : wt := mkW 56 2 bn_c2 bn_m2 bn_C2 bn_S2 bn_M2 bn_P2.
Definition bn_w3 : wt := mkW 57 3 bn_c3 bn_m3 bn_C3 bn_S3 bn_M3 bn_P3.
Definition ok_first (r : res (list BigZ.t)) (v : Z) : bool :=
  match r with Ok (a :: l) => BigZ.eqb a (BigZ.of_Z v) | _ => false end.
Lemma ok_first_spec q r v : ok_first r v = true -> exists b l, r = Ok b /\ map (bof q) b = zq_of q v :: l.
Proof.
  destruct r as [[|a l]| | |]; try discriminate. cbn [ok_first]. intros E. rewrite BigZ.spec_eqb in E. apply Z.eqb_eq in E. rewrite BigZ.spec_of_Z in E.
  exists (a :: l), (map (bof q) l). split; [reflexivity|]. cbn [map]. unfold bof at 1. rewrite E. reflexivity.
Qed.
Lemma ex1 : ok_first (ex_b bn_w2 [1%Z]) 0x29176100eaa962bdc1fe6c654d6a3c130e96a4d1168b33848b897dc502820133 = true.
Proof. vm_cast_no_check (eq_refl true). Qed.
Lemma ex2 : ok_first (ex_b bn_w3 [1%Z; 2%Z]) 0x115cc0f5e7d690413df64c6b9662e9cf2a3617f2743245519e19607a4417189a = true.
Proof. vm_cast_no_check (eq_refl true). Qed.
Lemma ex_hash w n inp v : nth_error bn_all (n - 1) = Some w -> length inp = n -> 1 <= n <= 16 -> ok_first (ex_b w inp) v = true ->
  bn_hash (O1 inp) (zq_of bn_r 0) = Ok (zq_of bn_r v).
Proof.
  intros W L N E. destruct (ok_first_spec bn_r _ _ E) as (b & l & B & M). unfold bn_hash. rewrite bn_hash_form.
  rewrite (all_eval bn_all bn_all_good all_len w n inp 0 1 b W L N B). unfold take_out. rewrite M. unfold slice. cbn [length]. reflexivity.
Qed.
Lemma test1 : bn_hash (O1 [1%Z]) (zq_of bn_r 0) = Ok (zq_of bn_r 0x29176100eaa962bdc1fe6c654d6a3c130e96a4d1168b33848b897dc502820133).
Proof. exact (ex_hash bn_w2 1 [1%Z] _ eq_refl eq_refl ltac:(lia) ex1). Qed.
Lemma test2 : bn_hash (O1 [1%Z; 2%Z]) (zq_of bn_r 0) = Ok (zq_of bn_r 0x115cc0f5e7d690413df64c6b9662e9cf2a3617f2743245519e19607a4417189a).
Proof. exact (ex_hash bn_w3 2 [1%Z; 2%Z] _ eq_refl eq_refl ltac:(lia) ex2). Qed.
