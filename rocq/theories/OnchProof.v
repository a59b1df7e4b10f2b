(* The on-chain text against the one of the recursive circuit and the verifier. *)
From Verif Require Import Base NumTheory GlModel GlProof FrField Cubic F3gModel F3gProof CodegenModel InterpModel VerifierModel
  UnrollModel UnrollProof CircModel CircProof OnchModel.
From Coq Require Import Lia.
Open Scope nat_scope.
Open Scope res_scope.

(* magnitudes, read off the text *)
Fixpoint look (ms : list (nat * Z)) (i : nat) : option Z :=
  match ms with [] => None | (j, B) :: r => if j =? i then Some B else look r i end.
Definition mag (ms : list (nat * Z)) (t : txt) : option Z :=
  match t with TNum k => Some (Z.abs k) | TTmp i => look ms i | _ => Some (2 ^ 65)%Z end.
Definition ozadd (a b : option Z) : option Z := oop Z.add a b.
Fixpoint xm (ms : list (nat * Z)) (e : sx) : option Z :=
  match e with
  | XRef t | XIdx t _ => mag ms t
  | XAdd a b | XSub a b => ozadd (xm ms a) (xm ms b)
  | XNeg a => xm ms a
  | XMul _ _ => None
  end.
Definition am (ms : list (nat * Z)) (a : arg) : option Z := match a with ARef t | AEmb t => mag ms t end.
Definition lim : Z := (2 ^ 119)%Z.
Definition within (o : option Z) : bool := match o with Some B => (B <=? lim)%Z | None => false end.
Definition rm (ms : list (nat * Z)) (o : orhs) : option Z :=
  match o with
  | OScal e => xm ms e
  | OVec a b c => oop Z.max (xm ms a) (oop Z.max (xm ms b) (xm ms c))
  | OWhole t => mag ms t
  | OCMul a b => if within (am ms a) && within (am ms b) then Some (2 ^ 64)%Z else None
  | OMulAdd a b c => if within (mag ms a) && within (mag ms b) && within (mag ms c) then Some (2 ^ 64)%Z else None
  | OCMulAdd a b c => if within (am ms a) && within (am ms b) && within (am ms c) then Some (2 ^ 64)%Z else None
  | OBad => None
  end.
Fixpoint mags (ms : list (nat * Z)) (l : list (txt * orhs)) : bool :=
  match l with
  | [] => true
  | (TTmp i, o) :: l' => match rm ms o with Some B => (B <=? lim)%Z && mags ((i, B) :: ms) l' | None => false end
  | _ => false
  end.
(* dimensions are one or three, no sum of two base elements *)
Definition o_ok (c : instr) : Prop :=
  (forall s, In s (i_src c) -> n_dim s = 1 \/ n_dim s = 3) /\
  match i_op c, i_src c with CAdd, a :: b :: _ => n_dim a <> 1 \/ n_dim b <> 1 | _, _ => True end.
(* each class modulo r has one number between -r/2 and r/2 *)
Definition centred (r : Z) (env : txt -> list Z) : Prop := forall t, Forall (fun a => (2 * Z.abs a < r)%Z) (env t).
(* inputs are words, up to the subtraction that gives Z *)
Definition words (env : txt -> list Z) : Prop :=
  forall t, match t with TTmp _ | TNum _ => True | _ => Forall (fun a => (Z.abs a <= 2 ^ 65)%Z) (env t) end.
Definition gl_env (env : txt -> list Z) (t : txt) : list Fr := map fof (env t).

Section Scale.
Local Transparent kmul kadd.
Lemma scale_l x a b c : kmul (mkK x f0 f0) (mkK a b c) = mkK (fmul x a) (fmul x b) (fmul x c).
Proof. apply k_ext; cbn [k0 k1 k2 kmul]; ring. Qed.
Lemma scale_r x a b c : kmul (mkK a b c) (mkK x f0 f0) = mkK (fmul a x) (fmul b x) (fmul c x).
Proof. apply k_ext; cbn [k0 k1 k2 kmul]; ring. Qed.
Lemma plus_base x a b c : kadd (mkK a b c) (mkK x f0 f0) = mkK (fadd a x) b c.
Proof. apply k_ext; cbn [k0 k1 k2 kadd]; ring. Qed.
End Scale.
Section S.
Variables (r : Z) (env : txt -> list Z).
Hypothesis Hb : big r.
Hypothesis HC : centred r env.
Hypothesis HW : words env.
Let G := gl_env env.

Lemma t_oz t : t_val G t = map fof (oz env t).
Proof. destruct t; reflexivity. Qed.
Lemma ox_hom e : forall z, ox_val env e = Some z -> x_val G e = Some (fof z).
Proof.
  induction e as [t|t k|a IHa b IHb|a IHa b IHb|a IHa b IHb|a IHa]; intros z; cbn [ox_val x_val].
  - unfold t_one. rewrite t_oz. destruct (oz env t) as [|x [|]]; try discriminate. intros [= <-]. reflexivity.
  - rewrite t_oz. destruct (oz env t) as [|x [|y [|w [|]]]]; try discriminate. cbn [map].
    destruct k as [|[|[|k]]]; cbn [nth_error]; try (intros [= <-]; reflexivity). destruct k; discriminate.
  - destruct (ox_val env a) as [u|]; [|discriminate]. destruct (ox_val env b) as [v|]; [|discriminate]. cbn [oop]. intros [= <-].
    rewrite (IHa u eq_refl), (IHb v eq_refl), fof_add. reflexivity.
  - destruct (ox_val env a) as [u|]; [|discriminate]. destruct (ox_val env b) as [v|]; [|discriminate]. cbn [oop]. intros [= <-].
    rewrite (IHa u eq_refl), (IHb v eq_refl), fof_sub. reflexivity.
  - destruct (ox_val env a) as [u|]; [|discriminate]. destruct (ox_val env b) as [v|]; [|discriminate]. cbn [oop]. intros [= <-].
    rewrite (IHa u eq_refl), (IHb v eq_refl), fof_mul. reflexivity.
  - destruct (ox_val env a) as [u|]; [|discriminate]. intros [= <-]. rewrite (IHa u eq_refl), fof_opp. reflexivity.
Qed.

Definition inv (ms : list (nat * Z)) : Prop := forall i B, look ms i = Some B -> Forall (fun a => (Z.abs a <= B)%Z) (env (TTmp i)).
Lemma mag_ok ms t B : inv ms -> mag ms t = Some B -> Forall (fun a => (Z.abs a <= B)%Z) (oz env t).
Proof.
  intros HI. pose proof (HW t) as Ht. destruct t; cbn [mag oz]; intros E; try (injection E as <-; exact Ht).
  - exact (HI _ _ E).
  - injection E as <-. constructor; [lia|constructor].
Qed.
Lemma xm_ok ms e : inv ms -> forall B z, xm ms e = Some B -> ox_val env e = Some z -> (Z.abs z <= B)%Z.
Proof.
  intros HI. induction e as [t|t k|a IHa b IHb|a IHa b IHb|a IHa b IHb|a IHa]; intros B z; cbn [xm ox_val].
  - intros E. pose proof (mag_ok ms t B HI E) as F. destruct (oz env t) as [|x [|]]; try discriminate. intros [= <-].
    exact (Forall_inv F).
  - intros E. pose proof (mag_ok ms t B HI E) as F. destruct (oz env t) as [|x [|y [|w [|]]]]; try discriminate. intros N.
    apply nth_error_In in N. rewrite Forall_forall in F. exact (F z N).
  - unfold ozadd. destruct (xm ms a) as [A|]; [|discriminate]. destruct (xm ms b) as [C|]; [|discriminate]. intros [= <-].
    destruct (ox_val env a) as [u|]; [|discriminate]. destruct (ox_val env b) as [v|]; [|discriminate]. intros [= <-].
    pose proof (IHa A u eq_refl eq_refl). pose proof (IHb C v eq_refl eq_refl). lia.
  - unfold ozadd. destruct (xm ms a) as [A|]; [|discriminate]. destruct (xm ms b) as [C|]; [|discriminate]. intros [= <-].
    destruct (ox_val env a) as [u|]; [|discriminate]. destruct (ox_val env b) as [v|]; [|discriminate]. intros [= <-].
    pose proof (IHa A u eq_refl eq_refl). pose proof (IHb C v eq_refl eq_refl). lia.
  - discriminate.
  - intros E. destruct (ox_val env a) as [u|]; [|discriminate]. intros [= <-]. pose proof (IHa B u E eq_refl). lia.
Qed.
(* an equation modulo r between small numbers is one of integers *)
Lemma eq_small y z B : (2 * Z.abs y < r)%Z -> (Z.abs z <= B)%Z -> (B <= lim)%Z -> eqr r y z -> y = z.
Proof.
  intros Hy Hz HB E. destruct Hb as [_ R]. apply (eqr_near r y z); [|exact E|].
  - revert R. change (2 ^ 250)%Z with (2 ^ 131 * lim)%Z. unfold lim. lia.
  - revert R. rewrite p250. unfold lim in HB. change (2 ^ 119)%Z with 664613997892457936451903530140172288%Z in HB. lia.
Qed.
Lemma x_holds ms e y B : inv ms -> xm ms e = Some B -> (B <= lim)%Z -> (2 * Z.abs y < r)%Z -> ox_holds r env e y ->
  (Z.abs y <= B)%Z /\ x_val G e = Some (fof y).
Proof.
  intros HI EB HB Hy (z & Ez & E). pose proof (xm_ok ms e HI B z EB Ez) as Bz. rewrite (eq_small y z B Hy Bz HB E).
  split; [exact Bz|exact (ox_hom e z Ez)].
Qed.
Definition u_of (o : orhs) : rhs :=
  match o with
  | OScal e => RScal e | OVec a b c => RVec a b c | OWhole t => RWhole t | OCMul a b => RCMul a b
  | OMulAdd a b c => RScal (XAdd (XMul (XRef a) (XRef b)) (XRef c)) | OCMulAdd a b c => RCMulAdd a b c | OBad => RScal (XRef TZ)
  end.
Lemma am_ok ms a x : inv ms -> within (am ms a) = true -> oa_val env a = Some x -> small3' x /\ a_val G a = Some (kof x).
Proof.
  intros HI HB. unfold within in HB. destruct (am ms a) as [B|] eqn:E; [|discriminate]. apply Z.leb_le in HB. unfold lim in HB.
  destruct a as [t|t]; cbn [am] in E; pose proof (mag_ok ms t B HI E) as F; cbn [oa_val a_val].
  - unfold oz3, t_three. rewrite t_oz. destruct (oz env t) as [|a0 [|a1 [|a2 [|]]]]; try discriminate. intros [= <-].
    inversion F as [|? ? A0 F1]; subst. inversion F1 as [|? ? A1 F2]; subst. inversion F2 as [|? ? A2 _]; subst.
    split; [unfold small3', small'; lia|reflexivity].
  - unfold t_one. rewrite t_oz. destruct (oz env t) as [|a0 [|]]; try discriminate. intros [= <-].
    inversion F as [|? ? A0 _]; subst. split; [unfold small3', small'; lia|]. cbn [map]. unfold kof. rewrite fof_0. reflexivity.
Qed.
Lemma small_of x : small' x -> small x.
Proof. unfold small', small. change (2 ^ 120)%Z with (2 * 2 ^ 119)%Z. lia. Qed.
Lemma small3_of x : small3' x -> small3 x.
Proof. destruct x as [[a b] c]. intros (A & B & C). exact (conj (small_of _ A) (conj (small_of _ B) (small_of _ C))). Qed.
Lemma stm_step ms d o B : inv ms -> rm ms o = Some B -> (B <= lim)%Z -> o_holds r env (TTmp d, o) ->
  Forall (fun a => (Z.abs a <= B)%Z) (env (TTmp d)) /\ s_holds G (TTmp d, u_of o).
Proof.
  intros HI EB HB. pose proof (HC (TTmp d)) as Cd. unfold o_holds, s_holds. cbn [fst snd]. unfold G at 2, gl_env.
  destruct o as [e|e0 e1 e2|t|a b|a b c|a b c|]; cbn [rm] in EB; cbn [u_of r_val].
  - intros (y & Ed & H). rewrite Ed in *. pose proof (Forall_inv Cd) as Cy. destruct (x_holds ms e y B HI EB HB Cy H) as (By & E).
    rewrite E. split; [constructor; [exact By|constructor]|reflexivity].
  - intros (y0 & y1 & y2 & Ed & H0 & H1 & H2). rewrite Ed in *. inversion Cd as [|? ? C0 Cr]; subst. inversion Cr as [|? ? C1 Cs]; subst.
    inversion Cs as [|? ? C2 _]; subst.
    destruct (xm ms e0) as [B0|] eqn:E0; [|discriminate]. destruct (xm ms e1) as [B1|] eqn:E1; [|discriminate].
    destruct (xm ms e2) as [B2|] eqn:E2; [|discriminate]. injection EB as <-.
    destruct (x_holds ms e0 y0 B0 HI E0 ltac:(lia) C0 H0) as (D0 & X0). destruct (x_holds ms e1 y1 B1 HI E1 ltac:(lia) C1 H1) as (D1 & X1).
    destruct (x_holds ms e2 y2 B2 HI E2 ltac:(lia) C2 H2) as (D2 & X2). rewrite X0, X1, X2. split; [repeat constructor; lia|reflexivity].
  - intros (y0 & y1 & y2 & Ed & H0 & H1 & H2). rewrite Ed in *. inversion Cd as [|? ? C0 Cr]; subst. inversion Cr as [|? ? C1 Cs]; subst.
    inversion Cs as [|? ? C2 _]; subst.
    destruct (x_holds ms (XIdx t 0) y0 B HI EB HB C0 H0) as (D0 & X0). destruct (x_holds ms (XIdx t 1) y1 B HI EB HB C1 H1) as (D1 & X1).
    destruct (x_holds ms (XIdx t 2) y2 B HI EB HB C2 H2) as (D2 & X2). split; [repeat constructor; lia|].
    cbn [x_val] in X0, X1, X2. unfold t_three. destruct (t_val G t) as [|u0 [|u1 [|u2 [|]]]]; try discriminate.
    cbn [nth_error] in X0, X1, X2. injection X0 as ->. injection X1 as ->. injection X2 as ->. reflexivity.
  - intros (y0 & y1 & y2 & x & y & Ed & Ea & Eb & H). rewrite Ed. destruct (within (am ms a)) eqn:Wa; [|discriminate].
    destruct (within (am ms b)) eqn:Wb; [|discriminate]. injection EB as <-.
    destruct (am_ok ms a x HI Wa Ea) as (Sx & Va). destruct (am_ok ms b y HI Wb Eb) as (Sy & Vb).
    destruct (glcmul_sound r x y (y0, y1, y2) Hb (small3_of _ Sx) (small3_of _ Sy) H) as (Wo & Vo). rewrite Va, Vb, <- Vo.
    destruct Wo as (W0 & W1 & W2). split; [repeat constructor; lia|reflexivity].
  - intros (y & xa & xb & xc & Ed & Ea & Eb & Ec & H). rewrite Ed. destruct (within (mag ms a)) eqn:Wa; [|discriminate].
    destruct (within (mag ms b)) eqn:Wb; [|discriminate]. destruct (within (mag ms c)) eqn:Wc; [|discriminate]. injection EB as <-.
    assert (K : forall t x, within (mag ms t) = true -> oz env t = [x] -> small x).
    { intros t x W Et. unfold within in W. destruct (mag ms t) as [M|] eqn:EM; [|discriminate]. apply Z.leb_le in W. unfold lim in W.
      pose proof (mag_ok ms t M HI EM) as F. rewrite Et in F. pose proof (Forall_inv F) as Fx. cbn beta in Fx. apply small_of. unfold small'. lia. }
    destruct (glmuladd_sound r xa xb xc y Hb (K _ _ Wa Ea) (K _ _ Wb Eb) (K _ _ Wc Ec) H) as (Wo & Vo).
    cbn [x_val]. unfold t_one. rewrite !t_oz, Ea, Eb, Ec. cbn [map opt2]. rewrite Vo. split; [repeat constructor; lia|reflexivity].
  - intros (y0 & y1 & y2 & x & y & z & Ed & Ea & Eb & Ec & H). rewrite Ed. destruct (within (am ms a)) eqn:Wa; [|discriminate].
    destruct (within (am ms b)) eqn:Wb; [|discriminate]. destruct (within (am ms c)) eqn:Wc; [|discriminate]. injection EB as <-.
    destruct (am_ok ms a x HI Wa Ea) as (Sx & Va). destruct (am_ok ms b y HI Wb Eb) as (Sy & Vb). destruct (am_ok ms c z HI Wc Ec) as (Sz & Vc).
    destruct (glcmuladd_sound r x y z (y0, y1, y2) Hb (small3_of _ Sx) (small3_of _ Sy) Sz H) as (Wo & Vo). rewrite Va, Vb, Vc, <- Vo.
    destruct Wo as (W0 & W1 & W2). split; [repeat constructor; lia|reflexivity].
  - discriminate.
Qed.

Lemma xp_val e : x_val G (XAdd e XP) = x_val G e.
Proof.
  cbn [x_val XP]. unfold XP. cbn [x_val]. unfold t_one. cbn [t_val]. rewrite fof_p. destruct (x_val G e) as [a|]; [|reflexivity]. cbn [opt2].
  f_equal. ring.
Qed.
Lemma t_list3 x : forall l, match l with [a; b; c] => Some (mkK a b c) | _ => None end = Some x -> l = list3 x.
Proof. intros [|a [|b [|c [|]]]] H; try discriminate. injection H as <-. reflexivity. Qed.
Lemma mul_emb_l d a b : s_holds G (d, RCMul (AEmb a) (ARef b)) ->
  s_holds G (d, RVec (XMul (XRef a) (XIdx b 0)) (XMul (XRef a) (XIdx b 1)) (XMul (XRef a) (XIdx b 2))).
Proof.
  unfold s_holds. cbn [fst snd r_val a_val x_val]. destruct (t_one G a) as [x|]; [|discriminate]. unfold t_three.
  destruct (t_val G b) as [|b0 [|b1 [|b2 [|]]]]; try discriminate. rewrite scale_l. exact (fun H => H).
Qed.
Lemma mul_emb_r d a b : s_holds G (d, RCMul (ARef a) (AEmb b)) ->
  s_holds G (d, RVec (XMul (XIdx a 0) (XRef b)) (XMul (XIdx a 1) (XRef b)) (XMul (XIdx a 2) (XRef b))).
Proof.
  unfold s_holds. cbn [fst snd r_val a_val x_val]. unfold t_three.
  destruct (t_val G a) as [|b0 [|b1 [|b2 [|]]]]; try discriminate. destruct (t_one G b) as [x|]; [|discriminate].
  rewrite scale_r. exact (fun H => H).
Qed.
Lemma muladd_emb_l d a b c : s_holds G (d, RCMulAdd (AEmb a) (ARef b) (AEmb c)) ->
  s_holds G (d, RVec (XAdd (XMul (XRef a) (XIdx b 0)) (XRef c)) (XMul (XRef a) (XIdx b 1)) (XMul (XRef a) (XIdx b 2))).
Proof.
  unfold s_holds. cbn [fst snd r_val a_val x_val]. destruct (t_one G a) as [x|]; [|discriminate]. unfold t_three.
  destruct (t_val G b) as [|b0 [|b1 [|b2 [|]]]]; try discriminate. destruct (t_one G c) as [y|]; [|discriminate].
  rewrite scale_l, plus_base. exact (fun H => H).
Qed.
Lemma muladd_emb_r d a b c : s_holds G (d, RCMulAdd (ARef a) (AEmb b) (AEmb c)) ->
  s_holds G (d, RVec (XAdd (XMul (XIdx a 0) (XRef b)) (XRef c)) (XMul (XIdx a 1) (XRef b)) (XMul (XIdx a 2) (XRef b))).
Proof.
  unfold s_holds. cbn [fst snd r_val a_val x_val]. unfold t_three.
  destruct (t_val G a) as [|b0 [|b1 [|b2 [|]]]]; try discriminate. destruct (t_one G b) as [x|]; [|discriminate].
  destruct (t_one G c) as [y|]; [|discriminate]. rewrite scale_r, plus_base. exact (fun H => H).
Qed.
Variables n1 n2 n3 : nat.
Lemma rhs_same c o : o_ok c -> o_rhs n1 n2 n3 c = Ok o -> o <> OBad ->
  exists u, u_rhs n1 n2 n3 c = Ok u /\ forall d, s_holds G (d, u_of o) -> s_holds G (d, u).
Proof.
  intros (HD & HA). unfold o_rhs, u_rhs. destruct (i_op c); destruct (i_src c) as [|a [|b [|e l]]]; try discriminate;
    try (destruct (u_ref n1 n2 n3 a) as [ta| | |]; try discriminate); try (destruct (u_ref n1 n2 n3 b) as [tb| | |]; try discriminate);
    cbn [bind].
  1, 2: destruct (HD a (or_introl eq_refl)) as [Ea|Ea]; destruct (HD b (or_intror (or_introl eq_refl))) as [Eb|Eb];
    rewrite Ea, Eb in *; [destruct HA as [HA|HA]; contradiction HA; reflexivity| | |]; intros [= <-] _; eexists; (split; [reflexivity|]); intros d H; exact H.
  1, 2: destruct (HD a (or_introl eq_refl)) as [Ea|Ea]; destruct (HD b (or_intror (or_introl eq_refl))) as [Eb|Eb];
    rewrite Ea, Eb; intros [= <-] _; eexists; (split; [reflexivity|]); intros d H; try exact H;
    unfold s_holds in *; cbn [u_of fst snd r_val] in H; rewrite ?xp_val in H; exact H.
  1, 2: destruct (HD a (or_introl eq_refl)) as [Ea|Ea]; destruct (HD b (or_intror (or_introl eq_refl))) as [Eb|Eb];
    rewrite Ea, Eb; intros [= <-] NB; [contradiction NB; reflexivity| | |]; eexists; (split; [reflexivity|]); intros d H;
    [exact (mul_emb_l _ _ _ H)|exact (mul_emb_r _ _ _ H)|exact H].
  { destruct (u_ref n1 n2 n3 e) as [te| | |]; try discriminate. cbn [bind].
    destruct (HD a (or_introl eq_refl)) as [Ea|Ea]; destruct (HD b (or_intror (or_introl eq_refl))) as [Eb|Eb];
      destruct (HD e (or_intror (or_intror (or_introl eq_refl)))) as [Ee|Ee]; rewrite Ea, Eb, Ee; cbn [o_muladd Nat.eqb andb]; intros [= <-] NB;
      try (contradiction NB; reflexivity); eexists; (split; [reflexivity|]); intros d H; try exact H.
    + exact (muladd_emb_l _ _ _ _ H).
    + exact (muladd_emb_r _ _ _ _ H). }
  all: destruct (HD a (or_introl eq_refl)) as [Ea|Ea]; rewrite Ea; intros [= <-] _; eexists; (split; [reflexivity|]); intros d H; exact H.
Qed.
Lemma run_same code : forall ms lo, (forall c, In c code -> o_ok c) -> inv ms -> mapM (o_stm n1 n2 n3) code = Ok lo ->
  mags ms lo = true -> Forall (o_holds r env) lo -> exists lu, mapM (u_stm n1 n2 n3) code = Ok lu /\ Forall (s_holds G) lu.
Proof.
  induction code as [|c code IH]; intros ms lo HO HI; cbn [mapM].
  - intros [= <-] _ _. exists []. split; [reflexivity|constructor].
  - unfold o_stm at 1, u_stm at 1. destruct (o_rhs n1 n2 n3 c) as [o| | |] eqn:EO; try discriminate. cbn [bind].
    destruct (u_ref n1 n2 n3 (i_dest c)) as [d| | |] eqn:ED; try discriminate. cbn [bind].
    destruct (mapM (o_stm n1 n2 n3) code) as [l| | |] eqn:EL; try discriminate. cbn [bind]. intros [= <-] HM HH.
    cbn [mags] in HM. destruct d as [| | | | | |i| | |]; try discriminate. destruct (rm ms o) as [B|] eqn:EB; [|discriminate].
    apply andb_prop in HM. destruct HM as (HB & HM). apply Z.leb_le in HB. inversion HH as [|? ? H1 H2]; subst.
    assert (NB : o <> OBad) by (intros ->; discriminate).
    destruct (stm_step ms i o B HI EB HB H1) as (Bd & Hs). destruct (rhs_same c o (HO c (or_introl eq_refl)) EO NB) as (u & EU & HU).
    rewrite EU. cbn [bind]. destruct (IH ((i, B) :: ms) l (fun c' H => HO c' (or_intror H))) as (lu & EM & HF).
    + intros j C. cbn [look]. destruct (i =? j) eqn:Eij; [apply Nat.eqb_eq in Eij; subst j; intros [= <-]; exact Bd|apply HI].
    + reflexivity.
    + exact HM.
    + exact H2.
    + rewrite EM. cbn [bind]. exists ((TTmp i, u) :: lu). split; [reflexivity|]. constructor; [exact (HU _ Hs)|exact HF].
Qed.
End S.

Lemma onch_ok r env x n1 n2 n3 code lo t v : big r -> centred r env -> words env -> inputs_ok (gl_env env) x ->
  relv (v_Z x) (gl_env env TZ) -> (forall c s, In c code -> In s (i_src c) -> src_ok (gl_env env) x n1 n2 n3 s) ->
  (forall c, In c code -> o_ok c) -> o_unroll n1 n2 n3 code = Ok (lo, t) -> mags [] lo = true -> Forall (o_holds r env) lo ->
  execute_code x code = Ok v -> relv v (t_val (gl_env env) t).
Proof.
  intros Hb HC HW HI HZ HS HO HU HM HH HX. unfold o_unroll in HU.
  destruct (mapM (o_stm n1 n2 n3) code) as [l0| | |] eqn:EL; try discriminate. cbn [bind] in HU.
  destruct (rev code) as [|c rc] eqn:ER; [discriminate|].
  destruct (u_ref n1 n2 n3 (i_dest c)) as [t0| | |] eqn:ET; try discriminate. cbn [bind] in HU. injection HU as -> ->.
  destruct (run_same r env Hb HC HW n1 n2 n3 code [] lo HO ltac:(intros i B; discriminate) EL HM HH) as (lu & EU & HF).
  apply (unroll_ok (gl_env env) x n1 n2 n3 HI HZ code lu t v HS); [|exact HF|exact HX].
  unfold unroll. rewrite EU. cbn [bind]. rewrite ER, ET. reflexivity.
Qed.
