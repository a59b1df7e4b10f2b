(* VerifyEvaluations of the on-chain circuit against check_constraint. *)
From Verif Require Import Base NumTheory GlModel GlProof FrField Cubic F3gModel F3gProof CodegenModel InterpModel VerifierModel
  UnrollModel UnrollProof UnrollEval CircModel CircProof CircMore OnchModel OnchProof.
From Coq Require Import Lia Znumtheory.
Open Scope nat_scope.
Open Scope res_scope.

Lemma mapM_in {A B} (f : A -> res B) : forall l m, mapM f l = Ok m -> forall x, In x l -> exists y, f x = Ok y /\ In y m.
Proof.
  induction l as [|a l IH]; intros m; cbn [mapM]; [intros _ x []|].
  destruct (f a) as [b| | |] eqn:E; try discriminate. cbn [bind]. destruct (mapM f l) as [bs| | |]; try discriminate. cbn [bind].
  intros [= <-] x [<- |H]; [exists b; split; [exact E|left; reflexivity]|]. destruct (IH bs eq_refl x H) as (y & Ey & Iy).
  exists y. split; [exact Ey|right; exact Iy].
Qed.
Lemma mags_bound r env : big r -> centred r env -> words env -> forall lo ms, inv env ms -> mags ms lo = true -> Forall (o_holds r env) lo ->
  forall d o, In (d, o) lo -> Forall (fun a => (Z.abs a <= lim)%Z) (env d).
Proof.
  intros Hb HC HW. induction lo as [|[d0 o0] lo IH]; intros ms HI HM HH d o; [intros []|]. cbn [mags] in HM.
  destruct d0 as [| | | | | |i| | |]; try discriminate. destruct (rm ms o0) as [B|] eqn:EB; [|discriminate].
  apply andb_prop in HM. destruct HM as (HB & HM). apply Z.leb_le in HB. inversion HH as [|? ? H1 H2]; subst.
  destruct (stm_step r env Hb HC HW ms i o0 B HI EB HB H1) as (Bd & _). intros [[= <- <-]|H].
  - eapply Forall_impl; [|exact Bd]. cbn beta. intros a Ha. lia.
  - refine (IH ((i, B) :: ms) _ HM H2 d o H). intros j C. cbn [look].
    destruct (i =? j) eqn:E; [apply Nat.eqb_eq in E; subst j; intros [= <-]; exact Bd|apply HI].
Qed.

(* inputs are words; Z follows *)
Definition words_in (env : txt -> list Z) : Prop :=
  forall t, match t with TTmp _ | TNum _ | TZ => True | _ => Forall (fun a => (0 <= a < 2 ^ 64)%Z) (env t) end.
Definition centred3 (r : Z) (a : sig3) : Prop := let '(a0, a1, a2) := a in (2 * Z.abs a0 < r /\ 2 * Z.abs a1 < r /\ 2 * Z.abs a2 < r)%Z.
Definition abs3 (a : sig3) (B : Z) : Prop := let '(a0, a1, a2) := a in (Z.abs a0 <= B /\ Z.abs a1 <= B /\ Z.abs a2 <= B)%Z.
Lemma word_abs a : word3 a -> abs3 a (2 ^ 64).
Proof. destruct a as [[a0 a1] a2]. intros (A & B & C). unfold abs3. lia. Qed.
Lemma abs_small a B : abs3 a B -> (B <= lim)%Z -> small3 a.
Proof. destruct a as [[a0 a1] a2]. intros (X & Y & Z') H. unfold lim in H. apply small3_of. unfold small3', small'. lia. Qed.
Lemma kof_sum a b : kof (sum3 a b) = kadd (kof a) (kof b).
Proof. destruct a as [[a0 a1] a2], b as [[b0 b1] b2]. unfold kof, sum3. rewrite !fof_add. apply k_ext; reflexivity. Qed.
Lemma three_words env t x : words_in env -> oz3 env t = Some x -> match t with TTmp _ | TNum _ | TZ => True | _ => word3 x end.
Proof.
  intros HW. pose proof (HW t) as F. unfold oz3. destruct t; try exact (fun _ => Logic.I); cbn [oz];
    match goal with |- context [env ?t] => destruct (env t) as [|a [|b [|c [|]]]]; try discriminate end; intros [= <-];
    inversion F as [|? ? A0 F1]; subst; inversion F1 as [|? ? A1 F2]; subst; inversion F2 as [|? ? A2 _]; subst; exact (conj A0 (conj A1 A2)).
Qed.
Lemma three_kof env t x : oz3 env t = Some x -> t_three (gl_env env) t = Some (kof x).
Proof.
  unfold oz3, t_three. rewrite t_oz. destruct (oz env t) as [|a [|b [|c [|]]]]; try discriminate. intros [= <-]. reflexivity.
Qed.
Lemma zero_out r enable o : big r -> ~ eqr r enable 0 -> (0 <= o < 2 ^ 64)%Z -> eqr r (enable * o) 0 -> o = 0%Z.
Proof.
  intros [Hp Hr] Hn Ho H. unfold eqr in *. rewrite Z.mod_0_l in * by (destruct Hp; lia).
  destruct (prime_mult r Hp enable o) as [D|D].
  - apply Z.mod_divide; [destruct Hp; lia|exact H].
  - contradiction Hn. apply Z.mod_divide; [destruct Hp; lia|exact D].
  - rewrite p250 in Hr. change (2 ^ 64)%Z with 18446744073709551616%Z in Ho.
    destruct (Z.eq_dec o 0) as [E|N]; [exact E|]. pose proof (Z.divide_pos_le r o ltac:(lia) D). lia.
Qed.

Section E.
Variables (r : Z) (env : txt -> list Z) (nbits qdeg base : nat) (zmul xacc qstep qacc : nat -> sig3) (qz : sig3) (prog : list (txt * orhs)).
Hypothesis Hb : big r.
Hypothesis HC : centred r env.
Hypothesis HW : words_in env.
Hypothesis Hnb : 0 < nbits.
Hypothesis HB : oe_body r env prog nbits qdeg base zmul xacc qstep qacc qz.
Let G := gl_env env.

Lemma e_zmul xi : oz3 env (TChal 7) = Some xi ->
  forall i, i < nbits -> word3 (zmul i) /\ kof (zmul i) = match i with O => kmul (kof xi) (kof xi) | S j => kmul (kof (zmul j)) (kof (zmul j)) end.
Proof.
  destruct HB as ((xi' & Exi & HZ) & _). intros E. rewrite E in Exi. injection Exi as <-.
  pose proof (word3_small _ (three_words env (TChal 7) xi HW E)) as Sx. induction i as [|i IH]; intros Hi; specialize (HZ _ Hi).
  - exact (glcmul_sound r xi xi _ Hb Sx Sx HZ).
  - destruct (IH ltac:(lia)) as (Wi & _). exact (glcmul_sound r _ _ _ Hb (word3_small _ Wi) (word3_small _ Wi) HZ).
Qed.
Lemma e_z : exists z, oz3 env TZ = Some z /\ abs3 z (2 ^ 65) /\
  G TZ = [fsub (k0 (kof (zmul (nbits - 1)))) f1; k1 (kof (zmul (nbits - 1))); k2 (kof (zmul (nbits - 1)))].
Proof.
  destruct HB as ((xi & Exi & _) & (z0 & z1 & z2 & EZ & HZ) & _). destruct (e_zmul xi Exi (nbits - 1) ltac:(lia)) as (Wz & _).
  destruct (zmul (nbits - 1)) as [[m0 m1] m2]. destruct Wz as (W0 & W1 & W2). destruct HZ as (E0 & E1 & E2).
  pose proof (HC TZ) as C. rewrite EZ in C. inversion C as [|? ? C0 Cr]; subst. inversion Cr as [|? ? C1 Cs]; subst. inversion Cs as [|? ? C2 _]; subst.
  change (2 ^ 64)%Z with 18446744073709551616%Z in *.
  apply (eq_small r Hb _ _ (2 ^ 65)%Z C0) in E0; [|unfold gl_p; lia|unfold lim; lia]. apply (eq_small r Hb _ _ (2 ^ 65)%Z C1) in E1; [|lia|unfold lim; lia].
  apply (eq_small r Hb _ _ (2 ^ 65)%Z C2) in E2; [|lia|unfold lim; lia]. subst z0 z1 z2. exists (m0 - 1 + gl_p, m1, m2)%Z.
  split; [unfold oz3; cbn [oz]; rewrite EZ; reflexivity|]. split; [unfold abs3, gl_p; lia|].
  unfold G, gl_env. rewrite EZ. cbn [map kof k0 k1 k2]. rewrite fof_add, fof_sub, fof_p, fof_1. f_equal. ring.
Qed.
Lemma e_words : words env.
Proof.
  intros t. pose proof (HW t) as F. destruct t; try exact Logic.I; try (eapply Forall_impl; [|exact F]; cbn beta; intros a Ha; lia).
  destruct e_z as (z & Ez & Bz & _). unfold oz3 in Ez. cbn [oz] in Ez. destruct (env TZ) as [|a [|b [|c [|]]]]; try discriminate.
  injection Ez as <-. destruct Bz as (A & B & C). repeat constructor; assumption.
Qed.
Hypothesis Hq : forall i, centred3 r (qacc i).
Hypothesis Hdeg : (Z.of_nat qdeg <= 2 ^ 50)%Z.
Lemma e_q : forall i, i < qdeg -> small3 (xacc i) /\ abs3 (qacc i) ((Z.of_nat i + 1) * 2 ^ 64) /\
    match i with
    | O => kof (xacc 0) = mkK f1 f0 f0 /\ t_three G (TEval base) = Some (kof (qacc 0))
    | S j => kof (xacc i) = kmul (kof (xacc j)) (kof (zmul (nbits - 1))) /\
             (exists e, t_three G (TEval (base + i)) = Some e /\ kof (qstep j) = kmul (kof (xacc i)) e) /\
             kof (qacc i) = kadd (kof (qacc j)) (kof (qstep j))
    end.
Proof.
  destruct HB as ((xi & Exi & _) & _ & _ & HQ & _). destruct (e_zmul xi Exi (nbits - 1) ltac:(lia)) as (Wz & _).
  induction i as [|i IH]; intros Hi; specialize (HQ _ Hi).
  - destruct HQ as (-> & E). split; [apply (abs_small _ 1); [unfold abs3; lia|unfold lim; lia]|].
    split; [exact (word_abs _ (three_words env (TEval base) _ HW E))|]. split; [|exact (three_kof env _ _ E)].
    unfold kof. rewrite fof_0, fof_1. reflexivity.
  - destruct (IH ltac:(lia)) as (Sx & Aq & _). destruct HQ as (HX & (e & Ee & HS) & HA).
    destruct (glcmul_sound r _ _ _ Hb Sx (word3_small _ Wz) HX) as (Wx & Vx).
    pose proof (three_words env (TEval (base + S i)) e HW Ee) as We.
    destruct (glcmul_sound r _ _ _ Hb (word3_small _ Wx) (word3_small _ We) HS) as (Ws & Vs).
    assert (EQ : qacc (S i) = sum3 (qacc i) (qstep i) /\ abs3 (qacc (S i)) ((Z.of_nat (S i) + 1) * 2 ^ 64)).
    { pose proof (Hq (S i)) as Cq. apply word_abs in Ws. destruct (qacc i) as [[a0 a1] a2]. destruct (qstep i) as [[b0 b1] b2].
      destruct (qacc (S i)) as [[c0 c1] c2]. destruct Aq as (A0 & A1 & A2). destruct Ws as (B0 & B1 & B2). destruct Cq as (C0 & C1 & C2).
      destruct HA as (E0 & E1 & E2). assert (Lm : ((Z.of_nat (S i) + 1) * 2 ^ 64 <= lim)%Z) by (unfold lim; change (2 ^ 119)%Z with (2 ^ 55 * 2 ^ 64)%Z; nia).
      assert (P : forall u v, (Z.abs u <= (Z.of_nat i + 1) * 2 ^ 64 -> Z.abs v <= 2 ^ 64 -> Z.abs (u + v) <= (Z.of_nat (S i) + 1) * 2 ^ 64)%Z) by (intros; lia).
      apply (eq_small r Hb _ _ _ C0 (P _ _ A0 B0) Lm) in E0. apply (eq_small r Hb _ _ _ C1 (P _ _ A1 B1) Lm) in E1.
      apply (eq_small r Hb _ _ _ C2 (P _ _ A2 B2) Lm) in E2. subst c0 c1 c2. split; [reflexivity|].
      exact (conj (P _ _ A0 B0) (conj (P _ _ A1 B1) (P _ _ A2 B2))). }
    destruct EQ as (EQ & AQ). split; [exact (word3_small _ Wx)|]. split; [exact AQ|]. split; [exact Vx|].
    split; [exists (kof e); split; [exact (three_kof env _ _ Ee)|exact Vs]|]. rewrite EQ. apply kof_sum.
Qed.
End E.

Lemma onch_eval r env x n1 n2 n3 nbits base qs e code lo t zmul xacc qstep qacc qz b enable :
  big r -> centred r env -> words_in env -> inputs_ok (gl_env env) x ->
  (forall c s, In c code -> In s (i_src c) -> src_ok (gl_env env) x n1 n2 n3 s) -> (forall c, In c code -> o_ok c) ->
  (forall i q, nth_error qs i = Some q -> ev_get e (true, false, q) = Some (base + i)) -> qs <> [] -> 0 < nbits ->
  o_unroll n1 n2 n3 code = Ok (lo, t) -> mags [] lo = true -> (forall i, centred3 r (qacc i)) -> (Z.of_nat (List.length qs) <= 2 ^ 50)%Z ->
  oe_body r env lo nbits (List.length qs) base zmul xacc qstep qacc qz -> ~ eqr r enable 0 -> oe_final r env t enable qz ->
  check_constraint x code e qs nbits = Ok b -> b = true.
Proof.
  intros Hb HC HW HI HS HO Hix Hne Hnb HU HM Hq Hdeg HB He (p0 & p1 & p2 & o0 & o1 & o2 & Ep & HN & Z0 & Z1 & Z2) HX.
  pose proof (e_words r env nbits (List.length qs) base zmul xacc qstep qacc qz lo Hb HC HW Hnb HB) as W.
  pose proof (e_zmul r env nbits (List.length qs) base zmul xacc qstep qacc qz lo Hb HW Hnb HB) as KZ.
  destruct (e_z r env nbits (List.length qs) base zmul xacc qstep qacc qz lo Hb HC HW Hnb HB) as (z & Ez & Bz & GZ).
  pose proof (e_q r env nbits (List.length qs) base zmul xacc qstep qacc qz lo Hb HW Hnb HB Hq Hdeg) as KQ.
  destruct HB as ((xi & Exi & _) & _ & HH & _ & z' & Ez' & HZQ). rewrite Ez in Ez'. injection Ez' as <-.
  unfold o_unroll in HU. destruct (mapM (o_stm n1 n2 n3) code) as [l0| | |] eqn:EL; try discriminate. cbn [bind] in HU.
  destruct (rev code) as [|c rc] eqn:ER; [discriminate|].
  destruct (u_ref n1 n2 n3 (i_dest c)) as [t0| | |] eqn:ET; try discriminate. cbn [bind] in HU. injection HU as -> ->.
  destruct (run_same r env Hb HC W n1 n2 n3 code [] lo HO ltac:(intros i B; discriminate) EL HM HH) as (lu & EU & HF).
  assert (HU : unroll n1 n2 n3 code = Ok (lu, t)) by (unfold unroll; rewrite EU; cbn [bind]; rewrite ER, ET; reflexivity).
  (* the quotient *)
  assert (Hl : 0 < List.length qs) by (destruct qs; [contradiction Hne; reflexivity|cbn [List.length]; lia]).
  destruct (KQ (List.length qs - 1) ltac:(lia)) as (_ & Aq & _).
  assert (Sq : small3 (qacc (List.length qs - 1))).
  { apply (abs_small _ _ Aq). unfold lim. change (2 ^ 119)%Z with (2 ^ 55 * 2 ^ 64)%Z. nia. }
  assert (Sz : small3 z) by (apply (abs_small _ _ Bz); unfold lim; lia).
  destruct (glcmul_sound r _ _ _ Hb Sq Sz HZQ) as (Wq & Vq).
  pose proof (three_kof env t _ Ep) as Tp.
  apply (ve_ok (gl_env env) x n1 n2 n3 nbits base qs e code lu t (fun i => kof (zmul i)) (fun i => kof (xacc i)) (fun i => kof (qstep i))
    (fun i => kof (qacc i)) (kof qz) b HI HS Hix Hne Hnb HU) with (p := kof (p0, p1, p2)) (enable := f1); [|exact HX|exact Tp|exact f0_neq_f1|].
  - split; [exists (kof xi); split; [exact (three_kof env _ _ Exi)|intros i Hi; exact (proj2 (KZ xi Exi i Hi))]|].
    split; [exact GZ|]. split; [exact HF|]. split; [intros i Hi; exact (proj2 (proj2 (KQ i Hi)))|].
    exists (kof z). split; [exact (three_kof env _ _ Ez)|exact Vq].
  - (* the final comparison *)
    assert (Ic : In c code) by (apply in_rev; rewrite ER; left; reflexivity).
    destruct (mapM_in _ _ _ EL c Ic) as ([d o] & Es & Io). assert (d = t).
    { unfold o_stm in Es. destruct (o_rhs n1 n2 n3 c) as [o'| | |]; try discriminate. cbn [bind] in Es. rewrite ET in Es. cbn [bind] in Es.
      injection Es as <- _. reflexivity. }
    subst d. pose proof (mags_bound r env Hb HC W lo [] ltac:(intros i B; discriminate) HM HH t o Io) as Bt.
    assert (Tn : oz env t = env t).
    { clear - HM Io. revert HM. generalize (@nil (nat * Z)) as ms. induction lo as [|[d0 q0] l IH]; [destruct Io|]. intros ms HM. cbn [mags] in HM.
      destruct d0 as [| | | | | |i| | |]; try discriminate. destruct (rm ms q0); [|discriminate]. apply andb_prop in HM. destruct HM as (_ & HM).
      destruct Io as [[= <- _]|Io]; [reflexivity|exact (IH Io _ HM)]. }
    unfold oz3 in Ep. rewrite Tn in Ep. destruct (env t) as [|u0 [|u1 [|u2 [|]]]]; try discriminate. injection Ep as -> -> ->.
    inversion Bt as [|? ? B0 Br]; subst. inversion Br as [|? ? B1 Bs]; subst. inversion Bs as [|? ? B2 _]; subst.
    destruct qz as [[q0 q1] q2]. destruct Wq as (W0 & W1 & W2). destruct HN as (N0 & N1 & N2). unfold lim in *.
    assert (K : forall p q o', (Z.abs p <= 2 ^ 119)%Z -> (0 <= q < 2 ^ 64)%Z -> GLNorm r (p - q) o' -> eqr r (enable * o') 0 ->
      fmul f1 (fsub (fof p) (fof q)) = f0).
    { intros p q o' Hp Hqq HN HE.
      assert (Sp : small (p - q)).
      { unfold small. change (2 ^ 120)%Z with (2 * 2 ^ 119)%Z. assert (2 ^ 64 <= 2 ^ 119)%Z by (apply Z.pow_le_mono_r; lia). lia. }
      destruct (norm_sound r (p - q) o' Hb Sp HN) as (Wo & Vo). rewrite (zero_out r enable o' Hb He Wo HE), fof_0, fof_sub in Vo. rewrite <- Vo. ring. }
    exists (kof (p0, p1, p2)). split; [exact Tp|]. cbn [kof k0 k1 k2].
    split; [exact (K _ _ _ B0 W0 N0 Z0)|]. split; [exact (K _ _ _ B1 W1 N1 Z1)|exact (K _ _ _ B2 W2 N2 Z2)].
Qed.
