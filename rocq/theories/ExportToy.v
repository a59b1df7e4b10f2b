(* A small analysed PIL, for the examples of the export; no part of the code. *)
From Coq Require Import String Ring Field.
From Verif Require Import Base GlModel FrField F3gModel Cubic F3gProof ListAux PolyModel Roots PolyProof CodegenModel CodegenProof
  InterpModel VerifierModel ImModel HashModel FftpModel FftpProof BrProof FriModel FriProof PolsModel PolsProof ProverModel ProverProof
  ParModel StarkModel StarkSrc StarkStep4 StarkTop StarkToy StageModel StarkExtend StarkStages StarkPlain StageToy InfoModel InfoCols InfoTop ExportModel ExportProof ExportTotal ExportPlain.
From Verif Require ArgModel.
Open Scope nat_scope.
Open Scope list_scope.
Open Scope res_scope.
Add Field K_field_xt : K_field.

(* pol commit a; pol constant c; pol i = a * a; public p = a(1); i * i' = 0; a + a' - c = 0; c - p = 0 *)
Definition x_a (nx : bool) : aexpr := ARef (0, Committed) nx.
Definition x_c : aexpr := ARef (0, Constant) false.
Definition x_i (nx : bool) : aexpr := ARef (0, Intermediate) nx.
Definition x_sq : aexpr := ABin BMul (x_a false) (x_a false).
Definition x_e1 : aexpr := ABin BMul (x_i false) (x_i true).
Definition x_e2 : aexpr := ABin BSub (ABin BAdd (x_a false) (x_a true)) x_c.
Definition x_e3 : aexpr := ABin BSub x_c (APublic [112]).
Definition x_id (e : aexpr) : identity := mkId KPolynomial (mkSel (Some e) []) (mkSel None []).
Definition x_an : analyzed := mkAn
  (fun n => match n with [97] => Some (mkSym (Some Committed) 0 None) | [99] => Some (mkSym (Some Constant) 0 None) | _ => None end)
  (fun n => match n with [105] => Some (mkSym (Some Intermediate) 0 None, [x_sq]) | _ => None end)
  (fun n => match n with [112] => Some (mkPD 0 (Some (0, Committed)) None 1) | _ => None end)
  [x_id x_e1; x_id x_e2; x_id x_e3]
  [SDefinition [97]; SDefinition [99]; SDefinition [105]; SPublic [112]; SIdentity 0; SIdentity 1; SIdentity 2] 1 1.
Definition x_out := export x_an.
Definition x_o : exported := match x_out with Ok o => o | _ => xp_start end.
Lemma x_export : export x_an = Ok x_o. Proof. vm_compute. reflexivity. Qed.
Definition x_pil : pil := pil_of x_an 2 None x_o.
Definition x_ss : sstruct := mkSS 1 2 [2; 1].
Definition x_new := starkinfo_new 40 x_pil x_ss.
Definition x_si : sinfo := match x_new with Ok (a, _, _) => a | _ => g_si end.
Definition x_sg : stageprog := match x_new with Ok (_, a, _) => a | _ => g_sg end.
Definition x_pg : program := match x_new with Ok (_, _, a) => a | _ => g_pg end.
Lemma x_info : starkinfo_new 40 x_pil x_ss = Ok (x_si, x_sg, x_pg). Proof. vm_compute. reflexivity. Qed.
Lemma x_parts : si_nbits x_si = 1 /\ si_nbits_ext x_si = 2 /\ si_nconst x_si = 1 /\ si_width x_si Scm1_n = 1 /\ pg_qs x_pg <> [].
Proof. vm_compute. repeat split; try reflexivity. discriminate. Qed.
Lemma x_width s : si_width x_si s <= MAX_OPS.
Proof. apply g_ops. destruct s; vm_compute; lia. Qed.
Lemma x_sound : sound_pil x_an.
Proof.
  assert (K : known x_an 0) by (vm_compute; left; reflexivity).
  constructor.
  - unfold x_an at 2. cbn [an_order]. apply Forall_cons; [|apply Forall_cons; [|apply Forall_cons; [|apply Forall_cons; [|apply Forall_cons; [|apply Forall_cons; [|apply Forall_cons; [|apply Forall_nil]]]]]]].
    + left. eexists. repeat split; reflexivity.
    + left. eexists. repeat split; reflexivity.
    + right. eexists _, _. split; [reflexivity|]. split; [reflexivity|]. split; [reflexivity|]. split; [reflexivity|]. repeat constructor; discriminate.
    + eexists _, _, _. split; [reflexivity|]. split; [reflexivity|]. discriminate.
    + eexists. split; [reflexivity|]. repeat split; try discriminate; try constructor. intros e [= <-]. cbn. repeat split; try exact K; discriminate.
    + eexists. split; [reflexivity|]. repeat split; try discriminate; try constructor. intros e [= <-]. cbn. repeat split; discriminate.
    + eexists. split; [reflexivity|]. repeat split; try discriminate; try constructor. intros e [= <-]. cbn. repeat split; discriminate.
  - vm_compute. repeat constructor. intros [].
Qed.
Lemma x_def i e : defines x_an i e -> i = 0 /\ e = x_sq.
Proof.
  intros [nm [s [vals [k [Hn [Hi [Hk [Hv ->]]]]]]]]. cbn in Hn. destruct Hn as [Hn|[Hn|[Hn|[Hn|[Hn|[Hn|[Hn|[]]]]]]]]; try discriminate Hn; injection Hn as <-; cbn in Hi; try discriminate Hi. injection Hi as <- <-.
  cbn in Hk. destruct k; [|lia]. cbn in Hv. injection Hv as <-. split; reflexivity.
Qed.
Lemma x_once p : once x_an p x_sq.
Proof. constructor; [discriminate | |]; constructor; reflexivity. Qed.
Lemma x_plain : plain_an x_an 2.
Proof.
  constructor.
  - intros i d _ H. destruct i as [|[|[|i]]]; cbn in H; [injection H as <-; reflexivity | injection H as <-; reflexivity | injection H as <-; reflexivity | destruct i; discriminate H].
  - intros x e Hx He. cbn in Hx. destruct Hx as [<-|[<-|[<-|[<-|[<-|[<-|[<-|[]]]]]]]]; cbn in He; try (destruct He; fail); destruct He as [<-|[]].
    + split; [cbn; repeat split; try discriminate; lia | apply x_once].
    + split; [cbn; repeat split; discriminate|]. constructor; [discriminate | |]; (constructor; [reflexivity | intros e' D; destruct (x_def _ _ D) as [_ ->]; apply x_once]).
    + split; [cbn; repeat split; try discriminate; lia|]. constructor; [discriminate | |constructor; reflexivity]. constructor; [discriminate | |]; constructor; reflexivity.
    + split; [cbn; repeat split; try discriminate; lia|]. constructor; [discriminate | |]; constructor; reflexivity.
  - intros n d Hn H. cbn in Hn. destruct Hn as [Hn|[Hn|[Hn|[Hn|[Hn|[Hn|[Hn|[]]]]]]]]; try discriminate Hn. injection Hn as <-. cbn in H. injection H as <-. exists 0. cbn. repeat split; lia.
  - intros n d H. cbn [x_an an_pubs] in H. destruct n as [|x n]; [discriminate H|]. do 113 (destruct x as [|x]; [first [discriminate H | destruct n; [injection H as <-; reflexivity | discriminate H]]|]). discriminate H.
Qed.

Lemma x_cm chal r nx v : ev x_an (cell_at 2 g_cp) (cell_at 2 g_kp) (public_at x_an g_cp) chal number_at r (x_a nx) v -> v = cell_at 2 g_cp 0 (if nx then S r else r).
Proof. intros H. inversion H; subst; reflexivity. Qed.
Lemma x_sq_ev chal r v : ev x_an (cell_at 2 g_cp) (cell_at 2 g_kp) (public_at x_an g_cp) chal number_at r x_sq v -> v = e_mul (cell_at 2 g_cp 0 r) (cell_at 2 g_cp 0 r).
Proof. intros H. inversion H as [| | | | | | | |? ? ? u w A B|]; subst. rewrite (x_cm _ _ _ _ A), (x_cm _ _ _ _ B). reflexivity. Qed.
Lemma x_im chal r nx v : ev x_an (cell_at 2 g_cp) (cell_at 2 g_kp) (public_at x_an g_cp) chal number_at r (x_i nx) v ->
  v = e_mul (cell_at 2 g_cp 0 (if nx then S r else r)) (cell_at 2 g_cp 0 (if nx then S r else r)).
Proof. intros H. inversion H as [| |? ? ? e ? D E| | | | | | |]; subst. destruct (x_def _ _ D) as [_ ->]. exact (x_sq_ev _ _ _ E). Qed.
Lemma x_rows : rows_hold x_an 2 g_cp g_kp.
Proof.
  intros chal i x d e v Hi Hx Hd _ Hs H.
  assert (T2 : val (of_k (kconst t_two)) = kconst t_two) by apply of_k_val. assert (T0 : val (of_k (kconst f0)) = kzero) by (rewrite of_k_val; apply kconst_0).
  assert (A2 : forall w, ev x_an (cell_at 2 g_cp) (cell_at 2 g_kp) (public_at x_an g_cp) chal number_at i x_c w -> val w = kconst t_two).
  { intros w Hw. inversion Hw; subst. unfold cell_at. cbn [nPols g_kp Nat.ltb Nat.leb p_array]. destruct i as [|[|i]]; [exact T2 | exact T2 | lia]. }
  assert (A3 : forall w, ev x_an (cell_at 2 g_cp) (cell_at 2 g_kp) (public_at x_an g_cp) chal number_at i (APublic [112]) w -> val w = kconst t_two).
  { intros w Hw. inversion Hw; subst. exact T2. }
  assert (W : val (cell_at 2 g_cp 0 i) = kzero /\ val (cell_at 2 g_cp 0 (S i)) = kconst t_two \/ val (cell_at 2 g_cp 0 i) = kconst t_two /\ val (cell_at 2 g_cp 0 (S i)) = kzero).
  { unfold cell_at. cbn [nPols g_cp Nat.ltb Nat.leb p_array]. destruct i as [|[|i]]; [left; split; [exact T0 | exact T2] | right; split; [exact T2 | exact T0] | lia]. }
  destruct x as [|[|[|x]]]; cbn in Hd; [| | |destruct x; discriminate Hd]; injection Hd as <-; cbn in Hs; injection Hs as <-.
  - inversion H as [| | | | | | | |? ? ? u w A B|]; subst. rewrite (x_im _ _ _ _ A), (x_im _ _ _ _ B), !val_mul. destruct W as [[-> ->]|[-> ->]]; ring.
  - inversion H as [| | | | | | |? ? ? u w A B| |]; subst. inversion A as [| | | | | |? ? ? u1 w1 A1 B1| | |]; subst. rewrite val_sub, val_add, (A2 _ B), (x_cm _ _ _ _ A1), (x_cm _ _ _ _ B1). destruct W as [[-> ->]|[-> ->]]; ring.
  - inversion H as [| | | | | | |? ? ? u w A B| |]; subst. rewrite val_sub, (A2 _ A), (A3 _ B). ring.
Qed.
Lemma x_chunks : chunks_ok x_si 2.
Proof. destruct x_parts as [_ [B _]]. eexists. split; [reflexivity|]. rewrite B. left. apply Nat.leb_le. vm_compute. reflexivity. Qed.
Theorem toy_export : exists tc br, sound_pil x_an /\ plain_an x_an 2 /\ export x_an = Ok x_o /\ starkinfo_new 40 (pil_of x_an 2 None x_o) x_ss = Ok (x_si, x_sg, x_pg) /\ pg_qs x_pg <> [] /\ 1 <= ss_nbits x_ss /\ ss_nbits_ext x_ss <= 24 /\
  (forall s, si_width x_si s <= MAX_OPS) /\ an_nconst x_an <= MAX_OPS /\ inputs StarkToy.ones 3 x_si g_cp g_kp tc br_new br /\ rows_hold x_an 2 g_cp g_kp /\
  chunks_ok x_si 2 /\ steps_ok (ss_nbits_ext x_ss) (tl (ss_steps x_ss)).
Proof.
  destruct x_parts as [B1 [B2 [B3 [B4 B5]]]].
  assert (S1 : steps_ok (ss_nbits_ext x_ss) (tl (ss_steps x_ss))).
  { cbn [steps_ok x_ss ss_nbits_ext ss_steps tl]. split; [lia|]. split; [lia|]. split; [|exact Coq.Init.Logic.I]. apply Nat.leb_le. vm_compute. reflexivity. }
  destruct (setup_total StarkToy.ones 3 1 2 1 g_kp br_new ones_len) as [tc [br [Es Nb]]]; try lia; [apply g_ops; lia | apply g_shaped; reflexivity | cbn; lia | reflexivity | reflexivity | exact new_nice|].
  exists tc, br. split; [exact x_sound|]. split; [exact x_plain|]. split; [exact x_export|]. split; [exact x_info|]. split; [exact B5|]. split; [cbn; lia|]. split; [cbn; lia|]. split; [exact x_width|]. split; [apply g_ops; cbn; lia|].
  split. { constructor; [| | exact new_nice | rewrite B1, B2, B3; exact Es]; (split; [apply g_shaped; reflexivity|]); (split; [cbn; lia|]); rewrite ?B1, ?B4; repeat split; reflexivity. }
  split; [exact x_rows|]. split; [exact x_chunks | exact S1].
Qed.

(* a power of numbers is exported, but the code generator does not know it *)
Definition x_pow : analyzed := mkAn (fun _ => None) (fun _ => None) (fun _ => None) [x_id (ABin BSub (x_a false) (ABin BPow (ANumber 2) (ANumber 3)))] [SIdentity 0] 1 1.
Lemma x_pow_sound : sound_pil x_pow.
Proof.
  constructor; [|vm_compute; constructor]. unfold x_pow at 2. cbn [an_order]. apply Forall_cons; [|apply Forall_nil].
  eexists. split; [reflexivity|]. repeat split; try discriminate; try constructor. intros e [= <-]. cbn. repeat split; try discriminate.
Qed.
Definition x_pow_o : exported := match export x_pow with Ok o => o | _ => xp_start end.
Lemma x_pow_export : export x_pow = Ok x_pow_o. Proof. vm_compute. reflexivity. Qed.
Lemma x_pow_panics fuel : starkinfo_new (3 + fuel) (pil_of x_pow 2 None x_pow_o) x_ss = Panic. Proof. vm_compute. reflexivity. Qed.
(* the same with 8 in its place *)
Definition x_eight : analyzed := mkAn (fun _ => None) (fun _ => None) (fun _ => None) [x_id (ABin BSub (x_a false) (ANumber 8))] [SIdentity 0] 1 1.
Definition x_eight_o : exported := match export x_eight with Ok o => o | _ => xp_start end.
Lemma x_eight_export : export x_eight = Ok x_eight_o. Proof. vm_compute. reflexivity. Qed.
Definition x_eight_new := starkinfo_new 10 (pil_of x_eight 2 None x_eight_o) x_ss.
Lemma x_eight_ok : exists r, starkinfo_new 10 (pil_of x_eight 2 None x_eight_o) x_ss = Ok r.
Proof.
  assert (H : match x_eight_new with Ok _ => true | _ => false end = true) by (vm_compute; reflexivity).
  unfold x_eight_new in H. destruct (starkinfo_new 10 (pil_of x_eight 2 None x_eight_o) x_ss) as [r| | |]; [exists r; reflexivity | discriminate H | discriminate H | discriminate H].
Qed.
