(* The code of StarkModel.v computes the meaning of its expression. *)
From Verif Require Import Base GlModel FrField F3gModel ListAux PolyModel CodegenModel CodegenProof InterpModel InterpProof
  VerifierModel VerifierProof HashModel FriModel FftpModel ProverModel ParModel StarkModel.
Open Scope nat_scope.
Open Scope res_scope.

(* ---------- running code over given leaves ---------- *)
Section Arun.
  Variable lf : node -> res F3G.
  Definition aread (t : nat -> option F3G) (r : node) : res F3G :=
    match n_ty r with Ntmp => CodegenModel.unwrap (t (n_id r)) | _ => lf r end.
  Fixpoint arun (t : nat -> option F3G) (code : list instr) : res (nat -> option F3G) :=
    match code with
    | [] => Ok t
    | c :: rest =>
        do src <- mapM (aread t) (i_src c);
        do v <- v_op (i_op c) src;
        match n_ty (i_dest c) with
        | Ntmp => arun (fun k => if k =? n_id (i_dest c) then Some v else t k) rest
        | _ => Panic
        end
    end.
End Arun.

Section Iter.
  Variable g : fstate -> node -> res (node * fstate).
  Lemma iter_code_app a : forall f b code f', iter_code g f (a ++ b) = Ok (code, f') ->
    exists a' f1 b', iter_code g f a = Ok (a', f1) /\ iter_code g f1 b = Ok (b', f') /\ code = a' ++ b'.
  Proof.
    induction a as [|c a IH]; intros f b code f' H; cbn [app iter_code] in *.
    - exists [], f, code. auto.
    - destruct (iter_refs g f (i_src c)) as [[l1 f1]| | |]; try discriminate H. cbn [bind fst snd] in *.
      destruct (g f1 (i_dest c)) as [[d1 f2]| | |]; try discriminate H. cbn [bind fst snd] in *.
      destruct (iter_code g f2 (a ++ b)) as [[c1 f3]| | |] eqn:E; try discriminate H. cbn [bind fst snd] in *.
      destruct (IH _ _ _ _ E) as [a' [g' [b' [A [B C]]]]]. rewrite A. cbn [bind fst snd]. injection H as <- <-. subst c1.
      eexists. exists g', b'. split; [reflexivity|]. split; [exact B | reflexivity].
  Qed.
End Iter.

Section Sim.
  Variables (si : sinfo) (im : list (nat * nat)) (rho : node -> F3G) (T : nat) (lf : node -> res F3G).
  Local Notation st := (ntype * nat * bool -> option F3G).
  Local Notation fixr := (fixp_ref si im [] false).

  Lemma fixr_ok f r r' f' : f_inv T f -> fixr f r = Ok (r', f') -> f_inv T f' /\ f_le f f'.
  Proof.
    intros I E. unfold fixp_ref in E.
    destruct (n_ty r); try discriminate E; try (injection E as <- <-; split; [exact I | apply f_le_refl]).
    - destruct (assoc Nat.eqb im (n_id r)) as [c|]; [injection E as <- <-; split; [exact I | apply f_le_refl]|].
      destruct (exp_tmp f (n_prime r, n_id r)) as [t f1] eqn:Et. destruct (exp_tmp_ok T _ _ _ _ I Et) as [A [B _]].
      injection E as <- <-. split; assumption.
    - destruct (vget (si_cm_2ns si) (n_id r)); try discriminate E. injection E as <- <-. split; [exact I | apply f_le_refl].
  Qed.
  Lemma fixrs_ok l : forall f l' f', f_inv T f -> iter_refs fixr f l = Ok (l', f') -> f_inv T f' /\ f_le f f'.
  Proof.
    induction l as [|r l IH]; intros f l' f' I E; cbn [iter_refs] in E.
    - injection E as <- <-. split; [exact I | apply f_le_refl].
    - destruct (fixr f r) as [[r1 f1]| | |] eqn:E1; try discriminate E. cbn [bind fst snd] in E.
      destruct (iter_refs fixr f1 l) as [[l1 f2]| | |] eqn:E2; try discriminate E. cbn [bind fst snd] in E. injection E as <- <-.
      destruct (fixr_ok _ _ _ _ I E1) as [I1 L1]. destruct (IH _ _ _ I1 E2) as [I2 L2]. split; [exact I2 | eapply f_le_trans; eassumption].
  Qed.
  Lemma fixc_ok l : forall f l' f', f_inv T f -> iter_code fixr f l = Ok (l', f') -> f_inv T f' /\ f_le f f'.
  Proof.
    induction l as [|c l IH]; intros f l' f' I E; cbn [iter_code] in E.
    - injection E as <- <-. split; [exact I | apply f_le_refl].
    - destruct (iter_refs fixr f (i_src c)) as [[r1 f1]| | |] eqn:E1; try discriminate E. cbn [bind fst snd] in E.
      destruct (fixr f1 (i_dest c)) as [[d f2]| | |] eqn:E2; try discriminate E. cbn [bind fst snd] in E.
      destruct (iter_code fixr f2 l) as [[l1 f3]| | |] eqn:E3; try discriminate E. cbn [bind fst snd] in E. injection E as <- <-.
      destruct (fixrs_ok _ _ _ _ I E1) as [I1 L1]. destruct (fixr_ok _ _ _ _ I1 E2) as [I2 L2]. destruct (IH _ _ _ I2 E3) as [I3 L3].
      split; [exact I3|]. eapply f_le_trans; [exact L1|]. eapply f_le_trans; eassumption.
  Qed.

  Local Notation Rel := (Rel im rho T).
  (* the leaves stand for [rho] *)
  Definition lf_ok (r : node) : Prop := n_ty r <> Ntmp -> lf r = Ok (rho r).

  Lemma read_ok s t f r v r' f' : Rel s t f -> f_inv T f -> ok_node T r -> rd rho s r = Some v -> fixr f r = Ok (r', f') ->
    lf_ok r' -> aread lf t r' = Ok v.
  Proof.
    intros HR I [Hc Hk] Hv Hf Hl. unfold fixp_ref in Hf.
    destruct Hc as [ty [id [val0 [p [-> [Hc1 [Hc2 _]]]]]]]. cbn [N_new n_ty n_id n_prime n_value n_dim n_pos] in *. unfold rd in Hv. cbn [N_new n_ty] in Hv.
    assert (Hleaf : ty <> Ntmp -> ty <> Nexp -> Some (rho (N_new ty id val0 p)) = Some v -> r' = N_new ty id val0 p -> aread lf t r' = Ok v).
    { intros N1 N2 E ->. injection E as <-. unfold lf_ok in Hl. cbn [N_new n_ty] in Hl. unfold aread. cbn [N_new n_ty].
      rewrite (Hl N1). destruct ty; try reflexivity. now destruct N1. }
    destruct ty; try discriminate Hf;
      try (apply Hleaf; [discriminate | discriminate | exact Hv | congruence]).
    - injection Hf as <- <-. destruct (Hk eq_refl) as [K1 K2]. cbn in K2. subst p. destruct HR as [R1 _].
      unfold aread. cbn [N_new n_ty n_id]. unfold key in Hv. cbn [N_new n_ty n_id n_prime] in Hv. now rewrite (R1 _ _ Hv K1).
    - destruct HR as [_ R2]. unfold key in Hv. cbn [N_new n_ty n_id n_prime] in Hv. specialize (R2 id p v Hv).
      destruct (assoc Nat.eqb im id) as [c|].
      + injection Hf as <- <-. assert (val0 = None) by (apply Hc1; discriminate). subst val0 v.
        unfold aread. cbn [n_ty]. unfold lf_ok in Hl. cbn [n_ty] in Hl. rewrite Hl by discriminate. reflexivity.
      + destruct R2 as [k [R3 R4]]. unfold exp_tmp, ea in *. rewrite R3 in Hf. injection Hf as <- <-.
        unfold aread. cbn [n_ty n_id]. now rewrite R4.
    - destruct (vget (si_cm_2ns si) id); try discriminate Hf. cbn [bind] in Hf. apply Hleaf; [discriminate | discriminate | exact Hv | congruence].
  Qed.
  Lemma reads_ok s t l : forall f vs l' f', Rel s t f -> f_inv T f -> Forall (ok_node T) l -> rds rho s l = Some vs ->
    iter_refs fixr f l = Ok (l', f') -> Forall lf_ok l' -> mapM (aread lf t) l' = Ok vs.
  Proof.
    induction l as [|r l IH]; intros f vs l' f' HR I Hok Hv Hf Hl; cbn [rds iter_refs] in *.
    - injection Hf as <- <-. injection Hv as <-. reflexivity.
    - destruct (rd rho s r) as [v|] eqn:E1; [|discriminate Hv]. destruct (rds rho s l) as [vs'|] eqn:E2; [|discriminate Hv]. injection Hv as <-.
      destruct (fixr f r) as [[r1 f1]| | |] eqn:F1; try discriminate Hf. cbn [bind fst snd] in Hf.
      destruct (iter_refs fixr f1 l) as [[l1 f2]| | |] eqn:F2; try discriminate Hf. cbn [bind fst snd] in Hf. injection Hf as <- <-.
      inversion Hok as [|? ? Ho Hok']; subst. inversion Hl as [|? ? Hl1 Hl2]; subst.
      destruct (fixr_ok _ _ _ _ I F1) as [I1 L1].
      cbn [mapM]. rewrite (read_ok s t f r v r1 f1 HR I Ho E1 F1 Hl1). cbn [bind].
      rewrite (IH f1 vs' l1 f2 (Rel_le _ _ _ _ _ _ _ L1 HR) I1 Hok' eq_refl F2 Hl2). reflexivity.
  Qed.

  Definition dest_ok (n : nat) (c : instr) : Prop := n_ty (i_dest c) = Ntmp /\ n_id (i_dest c) < n.
  Lemma fixc_dest l : forall f l' f', f_inv T f -> Forall (ok_instr T (im_keys im)) l -> iter_code fixr f l = Ok (l', f') ->
    Forall (dest_ok (f_tmp f')) l' /\ f_tmp f <= f_tmp f'.
  Proof.
    assert (Hle1 : forall f r r' f', fixr f r = Ok (r', f') -> f_tmp f <= f_tmp f').
    { intros f r r' f' E. unfold fixp_ref in E. destruct (n_ty r); try discriminate E; try (injection E as _ <-; lia).
      - destruct (assoc Nat.eqb im (n_id r)); [injection E as _ <-; lia|]. unfold exp_tmp in E.
        destruct (assoc pkey_eqb (f_exp f) (n_prime r, n_id r)); injection E as _ <-; cbn [f_tmp]; lia.
      - destruct (vget (si_cm_2ns si) (n_id r)); try discriminate E. injection E as _ <-. lia. }
    assert (Hle2 : forall l f l' f', iter_refs fixr f l = Ok (l', f') -> f_tmp f <= f_tmp f').
    { clear l. induction l as [|r l IH]; intros f l' f' E; cbn [iter_refs] in E; [injection E as _ <-; lia|].
      destruct (fixr f r) as [[r1 f1]| | |] eqn:E1; try discriminate E. cbn [bind fst snd] in E.
      destruct (iter_refs fixr f1 l) as [[l1 f2]| | |] eqn:E2; try discriminate E. cbn [bind fst snd] in E. injection E as _ <-.
      apply Hle1 in E1. apply IH in E2. lia. }
    induction l as [|c l IH]; intros f l' f' I Hok E; cbn [iter_code] in E.
    - injection E as <- <-. split; [constructor | lia].
    - destruct (iter_refs fixr f (i_src c)) as [[r1 f1]| | |] eqn:E1; try discriminate E. cbn [bind fst snd] in E.
      destruct (fixr f1 (i_dest c)) as [[d f2]| | |] eqn:E2; try discriminate E. cbn [bind fst snd] in E.
      destruct (iter_code fixr f2 l) as [[l1 f3]| | |] eqn:E3; try discriminate E. cbn [bind fst snd] in E. injection E as <- <-.
      inversion Hok as [|? ? Ho Hok']; subst.
      destruct (fixrs_ok _ _ _ _ I E1) as [I1 L1]. destruct (fixr_ok _ _ _ _ I1 E2) as [I2 L2].
      destruct (IH _ _ _ I2 Hok' E3) as [A B]. pose proof (Hle2 _ _ _ _ E1) as B1. pose proof (Hle1 _ _ _ _ E2) as B2.
      split; [|lia]. constructor; [|exact A]. unfold dest_ok. cbn [i_dest].
      destruct Ho as [_ [[Ht [_ Ho]]|[i [p [Hkey Hni]]]]].
      + unfold fixp_ref in E2. rewrite Ht in E2. injection E2 as <- <-. split; [exact Ht|]. destruct (Ho Ht). destruct I as [I _]. lia.
      + unfold fixp_ref in E2. unfold key in Hkey. injection Hkey as Hk1 Hk2 Hk3. rewrite Hk1 in E2.
        destruct (assoc Nat.eqb im (n_id (i_dest c))) as [q|] eqn:Eq; [exfalso; apply Hni; rewrite <- Hk2; eapply assoc_in_keys, Eq|].
        destruct (exp_tmp f1 (n_prime (i_dest c), n_id (i_dest c))) as [tt f4] eqn:Et. injection E2 as <- <-. split; [reflexivity|]. cbn [n_id].
        destruct (exp_tmp_ok T _ _ _ _ I1 Et) as [[_ [J1 _]] [_ [J3 _]]]. apply J1 in J3. lia.
  Qed.

  Lemma sim code : forall s s' t f code' f', run rho s code = Some s' -> iter_code fixr f code = Ok (code', f') -> f_inv T f -> Rel s t f ->
    Forall (ok_instr T (im_keys im)) code -> Forall (fun c => Forall lf_ok (i_src c)) code' ->
    exists t', arun lf t code' = Ok t' /\ Rel s' t' f'.
  Proof.
    induction code as [|c code IH]; intros s s' t f code' f' Hr Hf I HR Hok Hl; cbn [run iter_code] in *.
    - injection Hf as <- <-. injection Hr as <-. exists t. split; [reflexivity | exact HR].
    - destruct c as [op dst src]. cbn [i_op i_dest i_src] in *.
      unfold exec_op in Hr. destruct (rds rho s src) as [vs|] eqn:Es; [|discriminate Hr].
      destruct (apply_op op vs) as [v|] eqn:Ea; [|discriminate Hr].
      destruct (iter_refs fixr f src) as [[l1 f1]| | |] eqn:F1; try discriminate Hf. cbn [bind fst snd] in Hf.
      destruct (fixr f1 dst) as [[d1 f2]| | |] eqn:F2; try discriminate Hf. cbn [bind fst snd] in Hf.
      destruct (iter_code fixr f2 code) as [[c1 f3]| | |] eqn:F3; try discriminate Hf. cbn [bind fst snd] in Hf. injection Hf as <- <-.
      inversion Hok as [|? ? Ho Hok']; subst. inversion Hl as [|? ? Hl1 Hl2]; subst. cbn [i_src] in Hl1.
      destruct (fixrs_ok _ _ _ _ I F1) as [I1 L1]. destruct (fixr_ok _ _ _ _ I1 F2) as [I2 L2].
      pose proof (Rel_le _ _ _ _ _ _ _ L1 HR) as HR1.
      cbn [arun i_src i_op i_dest]. rewrite (reads_ok s t src f vs l1 f1 HR I (proj1 Ho) Es F1 Hl1). cbn [bind].
      rewrite (op_ok _ _ _ Ea). cbn [bind].
      assert (Hd : n_ty d1 = Ntmp /\ Rel (upd s (key dst) v) (fun k => if k =? n_id d1 then Some v else t k) f2).
      { destruct Ho as [_ Ho]. cbn [i_dest] in Ho. destruct Ho as [[Ht [Hc Ho]]|[i [p [Hkey Hni]]]].
        - unfold fixp_ref in F2. rewrite Ht in F2. injection F2 as <- <-. split; [exact Ht|]. destruct (Ho Ht) as [K1 K2].
          assert (Hkey : key dst = (Ntmp, n_id dst, false)) by (unfold key; now rewrite Ht, K2). rewrite Hkey.
          destruct HR1 as [R1 R2]. split.
          + intros j w Hw Hj. destruct (Nat.eqb_spec j (n_id dst)) as [->|Hn].
            * rewrite upd_same in Hw. congruence.
            * rewrite upd_other in Hw by congruence. now apply R1.
          + intros i p w Hw. rewrite upd_other in Hw by discriminate. specialize (R2 i p w Hw).
            destruct (assoc Nat.eqb im i); [exact R2|]. destruct R2 as [k [R3 R4]]. exists k. split; [exact R3|].
            destruct (Nat.eqb_spec k (n_id dst)) as [->|]; [|exact R4]. destruct I1 as [_ [I1 _]]. apply I1 in R3. lia.
        - unfold fixp_ref in F2. unfold key in Hkey. injection Hkey as Hk1 Hk2 Hk3. rewrite Hk1 in F2.
          destruct (assoc Nat.eqb im (n_id dst)) as [q|] eqn:Eq; [exfalso; apply Hni; rewrite <- Hk2; eapply assoc_in_keys, Eq|].
          destruct (exp_tmp f1 (n_prime dst, n_id dst)) as [tt f4] eqn:Et. injection F2 as <- <-. split; [reflexivity|]. cbn [n_id].
          destruct (exp_tmp_ok T _ _ _ _ I1 Et) as [J1 [J2 [J3 J4]]]. unfold key. rewrite Hk1.
          destruct HR1 as [R1 R2]. split.
          + intros j w Hw Hj. rewrite upd_other in Hw by discriminate.
            destruct (Nat.eqb_spec j tt) as [->|]; [|now apply R1]. destruct J1 as [_ [J1 _]]. apply J1 in J3. lia.
          + intros i' p' w Hw. destruct (key_eqb_spec (Nexp, i', p') (Nexp, n_id dst, n_prime dst)) as [Ek|Ek].
            * injection Ek as -> ->. rewrite upd_same in Hw. injection Hw as ->. rewrite Eq. exists tt. split; [exact J3|]. now rewrite Nat.eqb_refl.
            * rewrite upd_other in Hw by exact Ek. specialize (R2 i' p' w Hw). destruct (assoc Nat.eqb im i'); [exact R2|].
              destruct R2 as [k [R3 R4]]. exists k. split; [apply J2, R3|]. destruct (Nat.eqb_spec k tt) as [->|]; [|exact R4].
              exfalso. destruct J1 as [_ [_ [J1 _]]]. pose proof (J1 _ _ _ J3 (proj1 J2 _ _ R3)) as C. apply Ek. congruence. }
      destruct Hd as [Hd1 Hd2]. rewrite Hd1.
      exact (IH _ _ _ _ _ _ Hr F3 I2 Hd2 Hok' Hl2).
  Qed.
End Sim.

Definition f_start (t : nat) : fstate := mkF [] t (mkEV [] []).
Lemma f_start_inv t : f_inv t (f_start t).
Proof. split; [cbn; lia|]. split; [intros k u C; discriminate C|]. split; [intros k k' u C; discriminate C | intros k i C; discriminate C]. Qed.

(* generation without a result, rewritten for the extended domain *)
Theorem gen_fix fuel tbl im m t0 id c si code f : pil_code_gen fuel tbl None m (mkCtx t0 [] (im_keys im)) id false = Ok c ->
  assoc Nat.eqb im id = None -> iter_code (fixp_ref si im [] false) (f_start (x_tmp c)) (linear_code c) = Ok (code, f) ->
  exists k body op src, ea f (false, id) = Some k /\ k < f_tmp f /\ code = body ++ [mkI op (mkN Ntmp k None 0 false 0) src] /\
    Forall (dest_ok (f_tmp f)) code.
Proof.
  intros Eg Hc Ef.
  assert (Hnk : ~ In (false, id) (im_keys im)) by (intro C; apply keys_assoc in C; destruct C; congruence).
  destruct (gen_grows _ _ _ _ _ _ _ Eg) as [[_ [_ [ext [G1 G2]]]] G3]. cbn [x_calc] in *. specialize (G3 Hnk).
  change (linear_code (mkCtx t0 [] (im_keys im))) with (@nil instr) in G1. cbn [app] in G1. subst ext.
  pose proof (fixc_dest si im (x_tmp c) _ _ _ _ (f_start_inv _) G2 Ef) as [HD _].
  destruct G3 as [body [op [src Hlast]]]. rewrite Hlast in Ef.
  destruct (iter_code_app _ _ _ _ _ _ Ef) as [a' [f1 [b' [F1 [F2 ->]]]]].
  destruct (fixc_ok si im (x_tmp c) _ _ _ _ (f_start_inv _) F1) as [If1 _].
  cbn [iter_code i_src i_dest i_op] in F2.
  destruct (iter_refs (fixp_ref si im [] false) f1 src) as [[l1 f2]| | |] eqn:F3; try discriminate F2. cbn [bind fst snd] in F2.
  destruct (fixrs_ok si im (x_tmp c) _ _ _ _ If1 F3) as [If2 _].
  unfold fixp_ref in F2. cbn [N_new n_ty n_id n_prime n_value n_dim n_pos] in F2. rewrite Hc in F2.
  destruct (exp_tmp f2 (false, id)) as [k f3] eqn:Et. cbn [bind fst snd] in F2. injection F2 as <- <-.
  destruct (exp_tmp_ok (x_tmp c) _ _ _ _ If2 Et) as [[_ [J _]] [_ [K _]]].
  exists k, a', op, l1. split; [exact K|]. split; [apply J in K; lia|]. split; [reflexivity | exact HD].
Qed.

Theorem gen_run fuel tbl im m t0 id c si code f rho lf :
  pil_code_gen fuel tbl None m (mkCtx t0 [] (im_keys im)) id false = Ok c ->
  Forall wf_e tbl -> Forall (fun p => fst p < length tbl) im -> assoc Nat.eqb im id = None ->
  iter_code (fixp_ref si im [] false) (f_start (x_tmp c)) (linear_code c) = Ok (code, f) ->
  rho (N_new Nnumber 0 (Some 0%Z) false) = e_ZERO ->
  (forall ci r, In ci code -> In r (i_src ci) -> n_ty r <> Ntmp -> lf r = Ok (rho r)) ->
  exists e0 v k t', nth_error tbl id = Some e0 /\ den (with_im im tbl) rho false e0 v /\
    arun lf (fun _ => None) code = Ok t' /\ ea f (false, id) = Some k /\ t' k = Some v.
Proof.
  intros Eg Hw Him Hc Ef Z A3.
  assert (Hnk : ~ In (false, id) (im_keys im)) by (intro C; apply keys_assoc in C; destruct C; congruence).
  destruct (gen_grows _ _ _ _ _ _ _ Eg) as [[_ [_ [ext [G1 G2]]]] _]. cbn [x_calc] in *.
  change (linear_code (mkCtx t0 [] (im_keys im))) with (@nil instr) in G1. cbn [app] in G1. subst ext.
  pose proof (gen_subst im tbl fuel m (mkCtx t0 [] (im_keys im)) id false c (incl_refl _) Eg) as Eg'.
  destruct (codegen_ok (with_im im tbl) rho Z (with_im_wf im tbl Hw) fuel None m _ id false c Eg') as [C1 [_ [ext [C2 C3]]]]; [now left|].
  change (linear_code (mkCtx t0 [] (im_keys im))) with (@nil instr) in C2. cbn [app] in C2. subst ext. cbn [x_calc] in C3.
  pose (s0 := fun k : ntype * nat * bool => match k with (Nexp, i, p) => option_map (fun c => rho (N_new Ncm c None p)) (assoc Nat.eqb im i) | _ => None end).
  destruct (C3 s0) as [s' [R1 [R2 _]]].
  { intros p i Hin. destruct (keys_assoc _ _ _ Hin) as [q Hq].
    assert (Hlen : i < length tbl).
    { clear -Him Hq. induction Him as [|[a v] l Ha _ IH]; cbn [assoc] in Hq; [discriminate Hq|].
      destruct (Nat.eqb_spec a i) as [->|]; [exact Ha | apply IH, Hq]. }
    destruct (nth_error tbl i) as [ei|] eqn:Ei; [|apply nth_error_None in Ei; lia].
    exists (E_cm q false), (rho (N_new Ncm q None p)). split; [rewrite with_im_nth, Ei, Hq; reflexivity|].
    split; [unfold s0; rewrite Hq; reflexivity|].
    change (N_new Ncm q None p) with (N_new Ncm q None (e_next (E_cm q false) || p)). apply D_cm; reflexivity. }
  destruct (R2 false id C1) as [e0 [v [E0 [V0 D0]]]].
  rewrite with_im_nth, Hc in E0. destruct (nth_error tbl id) as [e1|] eqn:E1; [|discriminate E0]. injection E0 as ->.
  destruct (sim si im rho (x_tmp c) lf (linear_code c) s0 s' (fun _ => None) _ code f R1 Ef (f_start_inv _)) as [t' [T1 T2]].
  { split; [intros j w C; discriminate C|]. intros i p w Hs. unfold s0 in Hs. destruct (assoc Nat.eqb im i); [|discriminate Hs]. cbn in Hs. congruence. }
  { exact G2. }
  { apply Forall_forall. intros ci Hci. apply Forall_forall. intros r Hr. exact (A3 ci r Hci Hr). }
  destruct T2 as [_ T2]. specialize (T2 id false v V0). rewrite Hc in T2. destruct T2 as [k' [T3 T4]].
  exists e0, v, k', t'. split; [reflexivity|]. split; [exact D0|]. split; [exact T1|]. split; assumption.
Qed.

(* ---------- the three programs ---------- *)
(* the keys added by generation are entries of the table *)
Definition keys_below (n : nat) (c c' : context) : Prop := forall q j, In (q, j) (x_calc c') -> In (q, j) (x_calc c) \/ j < n.
Lemma gen_keys fuel tbl : forall m c i p c', pil_code_gen fuel tbl None m c i p = Ok c' -> keys_below (length tbl) c c'.
Proof.
  induction fuel as [|fuel IH]; intros m c i p c' H; [discriminate H|]. cbn [pil_code_gen] in H.
  destruct (key_in (p, i) (x_calc c)). { injection H as <-. intros q j Hj. now left. }
  destruct (vget tbl i) as [e| | |] eqn:Ev; try discriminate H. cbn [bind] in H.
  destruct (calculate_deps _ p e c) as [c1| | |] eqn:Ed; try discriminate H. cbn [bind] in H.
  assert (Hd : keys_below (length tbl) c c1).
  { refine (deps_rel (keys_below (length tbl)) _ p _ _ _ e c c1 Ed).
    - intros c0 q j Hj. now left.
    - intros a b d H1 H2 q j Hj. destruct (H2 q j Hj) as [Hb|Hb]; [exact (H1 q j Hb) | now right].
    - intros c0 i0 p0 c0' H0. exact (IH _ _ _ _ _ H0). }
  destruct (if m then find_muladd e else Ok e) as [e'| | |]; try discriminate H. cbn [bind] in H.
  destruct (eval_exp (mkCC (x_tmp c1) []) e' p) as [[r cc]| | |]; try discriminate H. cbn [bind] in H.
  destruct (match n_ty r with Ntmp => _ | _ => _ end) as [[l t]| | |]; try discriminate H. cbn [bind] in H. injection H as <-.
  cbn [x_calc]. intros q j [Hj|Hj]; [|exact (Hd q j Hj)]. injection Hj as <- <-. right.
  apply vget_inv in Ev. apply nth_error_Some. congruence.
Qed.

Lemma deps_none gen p e : forall c c', exp_refs p e = [] -> calculate_deps gen p e c = Ok c' -> c' = c.
Proof.
  induction e as [op id next value values k kp IH] using expr_ind'. intros c c' Hx H.
  rewrite exp_refs_eq in Hx. cbn [e_op e_id e_next e_values] in Hx. apply app_eq_nil in Hx. destruct Hx as [Hx1 Hx2].
  cbn [calculate_deps] in H.
  assert (E1 : match op with OExp => do i <- CodegenModel.unwrap id; (if p && next then Err else gen c i (p || next)) | _ => Ok c end = Ok c
     \/ forall a, match op with OExp => do i <- CodegenModel.unwrap id; (if p && next then Err else gen c i (p || next)) | _ => Ok c end <> Ok a).
  { destruct op; try (left; reflexivity). destruct id; [discriminate Hx1|]. right. intros a C. discriminate C. }
  match type of H with bind ?b _ = _ => destruct b as [c1| | |] eqn:Eb; try discriminate H end.
  destruct E1 as [E1|E1]; [|exfalso; exact (E1 c1 eq_refl)].
  assert (c1 = c) by congruence. subst c1. clear Eb E1. cbn [bind] in H.
  revert c H. induction IH as [|x l Hx _ IHl]; intros c H.
  - congruence.
  - cbn [exps_refs] in Hx2. apply app_eq_nil in Hx2. destruct Hx2 as [A B].
    destruct (calculate_deps gen p x c) as [c2| | |] eqn:E2; try discriminate H. cbn [bind] in H.
    assert (c2 = c) by (exact (Hx _ _ A E2)). subst c2. exact (IHl B _ H).
Qed.

Lemma deps_none_ok gen p e : forall c gen2 c2 c1, exp_refs p e = [] -> calculate_deps gen p e c = Ok c1 -> calculate_deps gen2 p e c2 = Ok c2.
Proof.
  induction e as [op id next value values k kp IH] using expr_ind'. intros c gen2 c2 c1 Hx H.
  rewrite exp_refs_eq in Hx. cbn [e_op e_id e_next e_values] in Hx. apply app_eq_nil in Hx. destruct Hx as [Hx1 Hx2].
  cbn [calculate_deps] in *.
  match type of H with bind ?b _ = _ => destruct b as [c3| | |] eqn:Eb; try discriminate H end.
  assert (Eb2 : match op with OExp => do i <- CodegenModel.unwrap id; (if p && next then Err else gen2 c2 i (p || next)) | _ => Ok c2 end = Ok c2).
  { destruct op; try reflexivity. destruct id; [discriminate Hx1 | discriminate Eb]. }
  rewrite Eb2. cbn [bind] in *. clear Eb Eb2.
  revert c3 H. induction IH as [|x l Hx _ IHl]; intros c3 H; [reflexivity|].
  cbn [exps_refs] in Hx2. apply app_eq_nil in Hx2. destruct Hx2 as [A B].
  destruct (calculate_deps gen p x c3) as [c4| | |] eqn:E2; try discriminate H. cbn [bind] in H.
  rewrite (Hx _ gen2 c2 _ A E2). cbn [bind]. exact (IHl B _ H).
Qed.

Lemma key_in_false k l : ~ In k l -> key_in k l = false.
Proof. intros H. destruct (key_in k l) eqn:E; [|reflexivity]. destruct k as [p i]. apply key_in_spec in E. contradiction. Qed.

(* an expression without references to others: the context only matters for its number of temporaries *)
Lemma gen_noexp fuel tbl r m c i c' e : pil_code_gen fuel tbl r m c i false = Ok c' -> ~ In (false, i) (x_calc c) ->
  nth_error tbl i = Some e -> exp_refs false e = [] ->
  exists l t, x_code c' = x_code c ++ [mkC i false (l ++ match r with Some (ty, rid) => [mkI CCopy (N_new ty rid None false) [N_new Nexp i None false]] | None => [] end)] /\
    x_tmp c' = Nat.max (x_tmp c) t /\
    forall c2, x_tmp c2 = x_tmp c -> ~ In (false, i) (x_calc c2) ->
      pil_code_gen fuel tbl None m c2 i false = Ok (mkCtx (Nat.max (x_tmp c) t) (x_code c2 ++ [mkC i false l]) ((false, i) :: x_calc c2)).
Proof.
  intros H Hk He Hx. destruct fuel as [|fuel]; [discriminate H|]. cbn [pil_code_gen] in *.
  rewrite (key_in_false _ _ Hk) in H. rewrite (vget_some _ _ _ He) in *. cbn [bind] in *.
  destruct (calculate_deps (pil_code_gen fuel tbl None false) false e c) as [c1| | |] eqn:Ed; try discriminate H. cbn [bind] in H.
  pose proof (deps_none _ _ _ _ _ Hx Ed). subst c1.
  destruct (if m then find_muladd e else Ok e) as [e'| | |]; try discriminate H. cbn [bind] in H.
  destruct (eval_exp (mkCC (x_tmp c) []) e' false) as [[rt cc]| | |] eqn:Ee; try discriminate H. cbn [bind] in H.
  destruct (match n_ty rt with Ntmp => _ | _ => _ end) as [[l t]| | |] eqn:El; try discriminate H. cbn [bind] in H.
  exists l, t. split; [|split].
  - destruct r as [[ty rid]|]; cbn [bind] in H; injection H as <-; cbn [x_code]; [reflexivity | now rewrite app_nil_r].
  - destruct r as [[ty rid]|]; cbn [bind] in H; injection H as <-; reflexivity.
  - intros c2 Ht Hk2. rewrite (key_in_false _ _ Hk2). rewrite (deps_none_ok _ _ _ _ (pil_code_gen fuel tbl None false) c2 _ Hx Ed). cbn [bind].
    rewrite Ht, Ee. cbn [bind]. rewrite El. reflexivity.
Qed.

Lemma iter1 si im f op dst src r : iter_code (fixp_ref si im [] false) f [mkI op dst src] = Ok r ->
  exists src' f1 d f2, iter_refs (fixp_ref si im [] false) f src = Ok (src', f1) /\ fixp_ref si im [] false f1 dst = Ok (d, f2) /\ r = ([mkI op d src'], f2).
Proof.
  cbn [iter_code i_op i_src i_dest]. intros H.
  destruct (iter_refs (fixp_ref si im [] false) f src) as [[s' f1]| | |]; try discriminate H. cbn [bind fst snd] in H.
  destruct (fixp_ref si im [] false f1 dst) as [[d f2]| | |] eqn:E; try discriminate H. cbn [bind fst snd] in H. injection H as <-.
  exists s', f1, d, f2. split; [reflexivity|]. split; [exact E | reflexivity].
Qed.

Lemma assoc_below im id n : Forall (fun p => fst p < n) im -> n <= id -> assoc Nat.eqb im id = @None nat.
Proof.
  intros H L. induction H as [|[a v] l Ha _ IH]; [reflexivity|]. cbn [assoc fst] in *. destruct (Nat.eqb_spec a id); [lia | exact IH].
Qed.

Theorem step4_shape fuel tbl im cid code tmp ctx si seg : step4_code fuel tbl im cid = Ok (code, tmp, ctx) ->
  fix_prover_code si im [] false code tmp = Ok seg -> Forall (fun p => fst p < length tbl) im ->
  exists c body f k, pil_code_gen fuel tbl None false (mkCtx 0 [] (im_keys im)) cid false = Ok c /\ assoc Nat.eqb im cid = None /\
    iter_code (fixp_ref si im [] false) (f_start (x_tmp c)) (linear_code c) = Ok (body, f) /\ ea f (false, cid) = Some k /\
    sg_first seg = body ++ [mkI CMul (N_new Nq 0 None false) [mkN Ntmp k None 0 false 0; N_new NZi 0 None false]] /\
    sg_tmp seg = f_tmp f /\ x_code ctx = [] /\ forall q j, In (q, j) (x_calc ctx) -> j < length tbl.
Proof.
  intros H Hf Him. unfold step4_code in H.
  destruct (pil_code_gen fuel tbl None false (mkCtx 0 [] (im_keys im)) cid false) as [c| | |] eqn:Eg; try discriminate H. cbn [bind] in H.
  destruct (rev (x_code c)) as [|cd r] eqn:Er; [discriminate H|].
  destruct (rev (cd_code cd)) as [|l rl] eqn:El; [discriminate H|].
  assert (Hna : assoc Nat.eqb im cid = None).
  { destruct (assoc Nat.eqb im cid) as [q|] eqn:Ea; [|reflexivity]. exfalso.
    assert (Hk : key_in (false, cid) (im_keys im) = true) by (apply key_in_spec; eapply assoc_in_keys, Ea).
    destruct fuel as [|fuel]; [discriminate Eg|]. cbn [pil_code_gen x_calc] in Eg. rewrite Hk in Eg. injection Eg as <-. discriminate Er. }
  assert (Hnk : ~ In (false, cid) (im_keys im)) by (intro C; apply keys_assoc in C; destruct C; congruence).
  apply (f_equal (@rev _)) in Er. rewrite rev_involutive in Er. cbn [rev] in Er.
  apply (f_equal (@rev _)) in El. rewrite rev_involutive in El. cbn [rev] in El.
  destruct (gen_grows _ _ _ _ _ _ _ Eg) as [_ G3]. cbn [x_calc] in G3. destruct (G3 Hnk) as [gb [gop [gsrc G4]]].
  assert (Hl : i_dest l = N_new Nexp cid None false).
  { unfold linear_code in G4. rewrite Er, map_app, concat_app in G4. cbn [map concat] in G4. rewrite El, app_nil_r, app_assoc in G4.
    apply app_inj_tail in G4. destruct G4 as [_ ->]. reflexivity. }
  injection H as Hcode Htmp Hctx.
  assert (Hlin : code = linear_code c ++ [mkI CMul (N_new Nq 0 None false) [N_new Nexp cid None false; N_new NZi 0 None false]]).
  { rewrite <- Hcode. unfold linear_code. rewrite Er. cbn [x_code].
    rewrite !map_app, !concat_app. cbn [map concat cd_code]. rewrite !app_nil_r, <- app_assoc, Hl. reflexivity. }
  unfold fix_prover_code in Hf. rewrite <- Htmp in Hf. cbn [x_tmp] in Hf.
  destruct (iter_code (fixp_ref si im [] false) (mkF [] (x_tmp c) (mkEV [] [])) code) as [[code' f']| | |] eqn:Ei; try discriminate Hf.
  cbn [bind fst snd] in Hf. rewrite Hlin in Ei.
  destruct (iter_code_app _ _ _ _ _ _ Ei) as [body [f1 [b' [F1 [F2 ->]]]]].
  destruct (gen_fix fuel tbl im false 0 cid c si body f1 Eg Hna F1) as [k [bb [op [src [K1 [K2 _]]]]]].
  apply iter1 in F2. destruct F2 as [src' [f2 [d [f3 [I1 [I2 I3]]]]]].
  cbn [iter_refs] in I1. unfold fixp_ref at 1 in I1. cbn [N_new n_ty n_id n_prime n_value n_dim n_pos] in I1. rewrite Hna in I1.
  unfold exp_tmp in I1. fold (ea f1 (false, cid)) in I1. rewrite K1 in I1. cbn [bind fst snd] in I1.
  unfold fixp_ref in I1, I2. cbn [N_new n_ty bind fst snd] in I1, I2.
  assert (E1 : src' = [mkN Ntmp k None 0 false 0; N_new NZi 0 None false]) by congruence.
  assert (E2 : f2 = f1) by congruence. subst src' f2.
  assert (E3 : d = N_new Nq 0 None false) by congruence. assert (E4 : f3 = f1) by congruence. subst d f3.
  injection I3 as -> ->. injection Hf as <-. cbn [sg_first sg_tmp].
  exists c, body, f1, k. split; [reflexivity|]. split; [exact Hna|]. split; [exact F1|]. split; [exact K1|]. split; [reflexivity|].
  split; [reflexivity|]. split; [rewrite <- Hctx; reflexivity|].
  rewrite <- Hctx. cbn [x_calc]. intros q j Hj. apply in_app_or in Hj. destruct Hj as [Hj|Hj].
  - apply in_concat in Hj. destruct Hj as [x [Hx1 Hx2]]. apply in_map_iff in Hx1. destruct Hx1 as [[a e] [Hx3 Hx4]].
    apply in_combine_l in Hx4. apply in_seq in Hx4. cbn [fst snd] in Hx3. destruct (e_keep e); subst x; [destruct Hx2|].
    destruct Hx2 as [Hx2|[Hx2|[]]]; injection Hx2 as _ <-; lia.
  - destruct (gen_keys _ _ _ _ _ _ _ Eg q j Hj) as [Hi|Hi]; [|exact Hi]. cbn [x_calc] in Hi.
    destruct (keys_assoc _ _ _ Hi) as [u Hu]. destruct (Nat.lt_ge_cases j (length tbl)) as [L|L]; [exact L|].
    rewrite (assoc_below im j (length tbl) Him L) in Hu. discriminate Hu.
Qed.

Lemma linear_one c i p l : x_code c = [mkC i p l] -> linear_code c = l.
Proof. intros H. unfold linear_code. rewrite H. cbn. now rewrite app_nil_r. Qed.

Theorem step5_shape fuel tbl fe im ctx code tmp si seg : step5_code fuel (tbl ++ [fe]) ctx (length tbl) = Ok (code, tmp) ->
  fix_prover_code si im [] false code tmp = Ok seg -> Forall (fun p => fst p < length tbl) im ->
  x_code ctx = [] -> (forall q j, In (q, j) (x_calc ctx) -> j < length tbl) -> exp_refs false fe = [] ->
  exists c body f k, pil_code_gen fuel (tbl ++ [fe]) None false (mkCtx (x_tmp ctx) [] (im_keys im)) (length tbl) false = Ok c /\
    assoc Nat.eqb im (length tbl) = None /\
    iter_code (fixp_ref si im [] false) (f_start (x_tmp c)) (linear_code c) = Ok (body, f) /\ ea f (false, length tbl) = Some k /\
    sg_first seg = body ++ [mkI CCopy (N_new Nf 0 None false) [mkN Ntmp k None 0 false 0]] /\
    sg_tmp seg = f_tmp f.
Proof.
  intros H Hf Him Hc0 Hkeys Hx. unfold step5_code in H.
  destruct (pil_code_gen fuel (tbl ++ [fe]) (Some (Nf, 0)) false ctx (length tbl) false) as [c| | |] eqn:Eg; try discriminate H. cbn [bind] in H.
  assert (Hna : assoc Nat.eqb im (length tbl) = None) by (apply (assoc_below im _ (length tbl) Him); lia).
  assert (Hnk : ~ In (false, length tbl) (im_keys im)) by (intro C; apply keys_assoc in C; destruct C; congruence).
  destruct (gen_noexp _ _ _ _ _ _ _ fe Eg) as [l [t [G1 [G2 G3]]]].
  { intro C. apply Hkeys in C. lia. }
  { rewrite nth_error_app2, Nat.sub_diag by lia. reflexivity. }
  { exact Hx. }
  specialize (G3 (mkCtx (x_tmp ctx) [] (im_keys im)) eq_refl Hnk). cbn [x_code x_calc app] in G3.
  rewrite Hc0 in G1. cbn [app] in G1. rewrite G1 in H. cbn [rev app cd_code cd_exp cd_prime] in H.
  unfold set_last_dest in H. rewrite rev_app_distr in H. cbn [rev app bind i_op i_src] in H. rewrite rev_involutive in H.
  injection H as Hcode Htmp. unfold linear_code in Hcode. cbn [x_code map concat cd_code] in Hcode. rewrite app_nil_r in Hcode.
  set (c' := mkCtx (Nat.max (x_tmp ctx) t) [mkC (length tbl) false l] ((false, length tbl) :: im_keys im)) in *.
  assert (Hl : linear_code c' = l) by (apply (linear_one c' (length tbl) false l); reflexivity).
  unfold fix_prover_code in Hf. rewrite <- Hcode, <- Htmp, G2 in Hf.
  destruct (iter_code (fixp_ref si im [] false) (mkF [] (Nat.max (x_tmp ctx) t) (mkEV [] [])) (l ++ _)) as [[code' f']| | |] eqn:Ei; try discriminate Hf.
  cbn [bind fst snd] in Hf.
  destruct (iter_code_app _ _ _ _ _ _ Ei) as [body [f1 [b' [F1 [F2 ->]]]]].
  assert (F1' : iter_code (fixp_ref si im [] false) (f_start (x_tmp c')) (linear_code c') = Ok (body, f1)) by (rewrite Hl; exact F1).
  destruct (gen_fix fuel (tbl ++ [fe]) im false (x_tmp ctx) (length tbl) c' si body f1 G3 Hna F1') as [k [bb [op [src [K1 [K2 _]]]]]].
  apply iter1 in F2. destruct F2 as [src' [f2 [d [f3 [I1 [I2 I3]]]]]].
  cbn [iter_refs] in I1. unfold fixp_ref at 1 in I1. cbn [N_new n_ty n_id n_prime n_value n_dim n_pos] in I1. rewrite Hna in I1.
  unfold exp_tmp in I1. fold (ea f1 (false, length tbl)) in I1. rewrite K1 in I1. cbn [bind fst snd] in I1.
  unfold fixp_ref in I2. cbn [N_new n_ty bind fst snd] in I2.
  assert (E1 : src' = [mkN Ntmp k None 0 false 0]) by congruence.
  assert (E2 : f2 = f1) by congruence. subst src' f2.
  assert (E3 : d = N_new Nf 0 None false) by congruence. assert (E4 : f3 = f1) by congruence. subst d f3.
  injection I3 as -> ->. injection Hf as <-. cbn [sg_first sg_tmp].
  exists c', body, f1, k. split; [exact G3|]. split; [exact Hna|]. split; [exact F1'|]. split; [exact K1|]. split; reflexivity.
Qed.

Theorem query_shape fuel tbl fe im code tmp si seg : query_code fuel (tbl ++ [fe]) (length tbl) = Ok (code, tmp) ->
  fix_prover_code si im [] false code tmp = Ok seg -> Forall (fun p => fst p < length tbl) im -> exp_refs false fe = [] ->
  exists c f k, pil_code_gen fuel (tbl ++ [fe]) None true (mkCtx 0 [] (im_keys im)) (length tbl) false = Ok c /\
    assoc Nat.eqb im (length tbl) = None /\
    iter_code (fixp_ref si im [] false) (f_start (x_tmp c)) (linear_code c) = Ok (sg_first seg, f) /\ ea f (false, length tbl) = Some k /\
    exists body op src, sg_first seg = body ++ [mkI op (mkN Ntmp k None 0 false 0) src].
Proof.
  intros H Hf Him Hx. unfold query_code in H.
  destruct (pil_code_gen fuel (tbl ++ [fe]) None true (mkCtx 0 [] []) (length tbl) false) as [c| | |] eqn:Eg; try discriminate H. cbn [bind] in H.
  assert (Hna : assoc Nat.eqb im (length tbl) = None) by (apply (assoc_below im _ (length tbl) Him); lia).
  assert (Hnk : ~ In (false, length tbl) (im_keys im)) by (intro C; apply keys_assoc in C; destruct C; congruence).
  destruct (gen_noexp _ _ _ _ _ _ _ fe Eg) as [l [t [G1 [G2 G3]]]].
  { intros []. }
  { rewrite nth_error_app2, Nat.sub_diag by lia. reflexivity. }
  { exact Hx. }
  specialize (G3 (mkCtx 0 [] (im_keys im)) eq_refl Hnk). cbn [x_code x_calc app] in G3. cbn [x_code app x_tmp] in G1, G2, G3.
  rewrite app_nil_r in G1. injection H as Hcode Htmp. rewrite (linear_one _ _ _ _ G1) in Hcode.
  set (c' := mkCtx (Nat.max 0 t) [mkC (length tbl) false l] ((false, length tbl) :: im_keys im)) in *.
  assert (Hl : linear_code c' = l) by (apply (linear_one c' (length tbl) false l); reflexivity).
  unfold fix_prover_code in Hf. rewrite <- Hcode, <- Htmp, G2 in Hf.
  destruct (iter_code (fixp_ref si im [] false) (mkF [] (Nat.max 0 t) (mkEV [] [])) l) as [[code' f']| | |] eqn:Ei; try discriminate Hf.
  cbn [bind fst snd] in Hf. injection Hf as <-. cbn [sg_first].
  assert (F1' : iter_code (fixp_ref si im [] false) (f_start (x_tmp c')) (linear_code c') = Ok (code', f')) by (rewrite Hl; exact Ei).
  destruct (gen_fix fuel (tbl ++ [fe]) im true 0 (length tbl) c' si code' f' G3 Hna F1') as [k [bb [op [src [K1 [K2 [K3 _]]]]]]].
  exists c', f', k. split; [exact G3|]. split; [exact Hna|]. split; [exact F1'|]. split; [exact K1|]. exists bb, op, src. exact K3.
Qed.
