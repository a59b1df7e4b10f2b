(* Examples and refutations for the on-chain arithmetic. *)
From Verif Require Import Base NumTheory GlModel GlProof FrField Cubic F3gModel F3gProof CodegenModel InterpModel VerifierModel
  UnrollModel UnrollProof BnModel CircModel CircProof CircToy OnchModel OnchProof OnchEval.
From Coq Require Import Lia.
Open Scope nat_scope.
Open Scope res_scope.

(* two base elements: the text has no meaning, or is none *)
Lemma base_dead r env n1 n2 n3 c a b rest d o : (i_op c = CAdd \/ i_op c = CMul) -> i_src c = a :: b :: rest ->
  n_dim a = 1 -> n_dim b = 1 -> (forall t, u_ref n1 n2 n3 a = Ok t -> List.length (oz env t) = 1) ->
  o_stm n1 n2 n3 c = Ok (d, o) -> ~ o_holds r env (d, o).
Proof.
  intros Hop Hs Ha Hb HL. unfold o_stm, o_rhs. rewrite Hs.
  destruct Hop as [-> | ->]; (destruct (u_ref n1 n2 n3 a) as [ta| | |]; try discriminate); (destruct (u_ref n1 n2 n3 b) as [tb| | |]; try discriminate);
    cbn [bind]; rewrite Ha, Hb; cbn [o_add o_mul bind]; (destruct (u_ref n1 n2 n3 (i_dest c)) as [d'| | |]; try discriminate); cbn [bind];
    intros [= <- <-]; unfold o_holds; cbn [snd fst].
  - intros (y & _ & z & E & _). cbn [ox_val] in E. specialize (HL ta eq_refl).
    destruct (oz env ta) as [|x [|x1 [|x2 [|]]]]; discriminate.
  - exact (fun H => H).
Qed.
Lemma muladd_dead r env n1 n2 n3 c a b e rest d o : i_op c = CMuladd -> i_src c = a :: b :: e :: rest ->
  n_dim a = 1 -> n_dim b = 1 -> n_dim e = 3 -> o_stm n1 n2 n3 c = Ok (d, o) -> ~ o_holds r env (d, o).
Proof.
  intros Hop Hs Ha Hb He. unfold o_stm, o_rhs. rewrite Hs, Hop.
  destruct (u_ref n1 n2 n3 a) as [ta| | |]; try discriminate. destruct (u_ref n1 n2 n3 b) as [tb| | |]; try discriminate.
  destruct (u_ref n1 n2 n3 e) as [te| | |]; try discriminate. cbn [bind]. rewrite Ha, Hb, He. cbn [o_muladd Nat.eqb andb bind].
  destruct (u_ref n1 n2 n3 (i_dest c)) as [d'| | |]; try discriminate. cbn [bind]. intros [= <- <-] H. exact H.
Qed.

(* tmp_0 = e + e, tmp_(i+1) = tmp_i + tmp_i *)
Definition ev0 : node := mkN Neval 0 None 3 false 0.
Definition tmpn (i : nat) : node := mkN Ntmp i None 3 false 0.
Fixpoint doubles (n : nat) : list instr :=
  match n with O => [mkI CAdd (tmpn 0) [ev0; ev0]] | S m => doubles m ++ [mkI CAdd (tmpn n) [tmpn m; tmpn m]] end.
Fixpoint dtext (n : nat) : list (txt * orhs) :=
  match n with
  | O => [(TTmp 0, OVec (XAdd (XIdx (TEval 0) 0) (XIdx (TEval 0) 0)) (XAdd (XIdx (TEval 0) 1) (XIdx (TEval 0) 1)) (XAdd (XIdx (TEval 0) 2) (XIdx (TEval 0) 2)))]
  | S m => dtext m ++ [(TTmp n, OVec (XAdd (XIdx (TTmp m) 0) (XIdx (TTmp m) 0)) (XAdd (XIdx (TTmp m) 1) (XIdx (TTmp m) 1)) (XAdd (XIdx (TTmp m) 2) (XIdx (TTmp m) 2)))]
  end.
Lemma doubles_text : o_unroll 0 0 0 (doubles 10) = Ok (dtext 10, TTmp 10).
Proof. reflexivity. Qed.
Lemma doubles_val r env : forall n a b c, env (TEval 0) = [a; b; c] -> Forall (o_holds r env) (dtext n) ->
  exists y0 y1 y2, env (TTmp n) = [y0; y1; y2] /\ eqr r y0 (2 ^ Z.of_nat (S n) * a).
Proof.
  induction n as [|n IH]; intros a b c E H.
  - cbn [dtext] in H. apply Forall_inv in H. unfold o_holds in H. cbn [fst snd] in H. destruct H as (y0 & y1 & y2 & E0 & (z & Ez & HZ) & _).
    exists y0, y1, y2. split; [exact E0|]. cbn [ox_val oz] in Ez. rewrite E in Ez. cbn [nth_error oop] in Ez. injection Ez as <-.
    eapply eqr_trans; [exact HZ|]. change (2 ^ Z.of_nat 1)%Z with 2%Z. replace (2 * a)%Z with (a + a)%Z by lia. apply eqr_refl.
  - cbn [dtext] in H. apply Forall_app in H. destruct H as (H1 & H2). destruct (IH a b c E H1) as (y0 & y1 & y2 & Ey & Hy).
    apply Forall_inv in H2. unfold o_holds in H2. cbn [fst snd] in H2. destruct H2 as (w0 & w1 & w2 & E0 & (z & Ez & HZ) & _).
    exists w0, w1, w2. split; [exact E0|]. cbn [ox_val oz] in Ez. rewrite Ey in Ez. cbn [nth_error oop] in Ez. injection Ez as <-.
    eapply eqr_trans; [exact HZ|]. rewrite pow2_S. replace (2 * 2 ^ Z.of_nat (S n) * a)%Z with (2 ^ Z.of_nat (S n) * a + 2 ^ Z.of_nat (S n) * a)%Z by lia.
    apply eqr_add; exact Hy.
Qed.
Lemma norm_limit r i j out : big r -> eqr r i j -> (1010 * gl_p <= j <= 2 ^ 119)%Z -> ~ GLNorm r i out.
Proof.
  intros Hb Hij Bj [k [Hk [Ho E]]]. pose proof (out_range r out Hb Ho) as Bo. destruct Hb as [Hp Hr].
  assert (Bk : (0 <= k < 2 ^ Z.of_nat 10)%Z). { apply (ranged_sound r 10 k Hp); [|exact Hk]. rewrite p10. rewrite p250 in Hr. lia. }
  rewrite p10 in Bk. change (2 ^ 119)%Z with 664613997892457936451903530140172288%Z in Bj. change (2 ^ 64)%Z with 18446744073709551616%Z in Bo.
  rewrite p250 in Hr. unfold gl_p in *.
  assert (E' : eqr r (j + 16 * 18446744069414584321) (k * 18446744069414584321 + out)).
  { eapply eqr_trans; [|exact E]. apply eqr_add; [apply eqr_sym; exact Hij|apply eqr_refl]. }
  apply (eqr_near r) in E'; lia.
Qed.
(* eleven doublings of the element -1: the final comparison has no solution, whatever the quotient *)
Lemma doubles_dead r env a b c y0 y1 y2 q0 q1 q2 out : big r -> env (TEval 0) = [a; b; c] -> a = (gl_p - 1)%Z ->
  Forall (o_holds r env) (dtext 10) -> env (TTmp 10) = [y0; y1; y2] -> (0 <= q0 < 2 ^ 64)%Z ->
  ~ GLCNorm r (y0 - q0, y1 - q1, y2 - q2)%Z out.
Proof.
  intros Hb Ee Ha HH Et Hq. destruct out as [[o0 o1] o2]. intros (H & _). destruct (doubles_val r env 10 a b c Ee HH) as (z0 & z1 & z2 & Ez & Hz).
  rewrite Et in Ez. injection Ez as <- <- <-. revert H. apply (norm_limit r _ (2 ^ Z.of_nat 11 * a - q0) o0 Hb).
  - apply eqr_sub; [exact Hz|apply eqr_refl].
  - subst a. change (2 ^ Z.of_nat 11)%Z with 2048%Z. change (2 ^ 64)%Z with 18446744073709551616%Z in Hq. unfold gl_p.
    change (2 ^ 119)%Z with 664613997892457936451903530140172288%Z. lia.
Qed.

(* eval0 * challenge0 - public0 *)
Definition oy_code : list instr :=
  [mkI CMul (tmpn 0) [ev0; mkN Nchallenge 0 None 3 false 0]; mkI CSub (tmpn 1) [tmpn 0; mkN Npublic 0 None 1 false 0]].
Definition oy_env (t : txt) : list Z :=
  (match t with
   | TEval _ => [1; 2; 0] | TChal _ => [0; 0; 1] | TPub _ => [5] | TTmp O => [2; 2; 1] | TTmp _ => [gl_p - 3; 2; 1] | TZ => [0; 0; 0]
   | _ => [0]
   end)%Z.
Definition oy_text : list (txt * orhs) :=
  [(TTmp 0, OCMul (ARef (TEval 0)) (ARef (TChal 0)));
   (TTmp 1, OVec (XAdd (XSub (XIdx (TTmp 0) 0) (XRef (TPub 0))) XP) (XIdx (TTmp 0) 1) (XIdx (TTmp 0) 2))].
Definition oy_ctx : vctx :=
  mkV [] [] [] [] [] [e_new (fof 1) (fof 2) (fof 0)] [e_from (fof 5)] [e_new (fof 0) (fof 0) (fof 1)] [] []
    (e_new (fof 0) (fof 0) (fof 0)) (e_new (fof 0) (fof 0) (fof 0)).
Lemma oy_centred : centred bls_q oy_env.
Proof. intros t. destruct t as [| | | | | |[|i]| | |]; cbn [oy_env]; repeat constructor. Qed.
Lemma oy_words : words oy_env.
Proof. intros t. destruct t; try exact Logic.I; cbn [oy_env]; repeat constructor; discriminate. Qed.
Lemma oy_in : inputs_ok (gl_env oy_env) oy_ctx.
Proof.
  constructor.
  - intros [|[|i]] v; try discriminate. intros [= <-]. split; [apply wf_new|reflexivity].
  - intros [|[|i]] v; try discriminate. intros [= <-]. split; [apply wf_new|reflexivity].
  - intros [|[|i]] v; try discriminate. intros [= <-]. split; [apply wf_from|reflexivity].
  - intros [|i]; discriminate.
  - discriminate.
  - discriminate.
Qed.
Lemma oy_src c s : In c oy_code -> In s (i_src c) -> src_ok (gl_env oy_env) oy_ctx 0 0 0 s.
Proof. intros [<- |[<- |[]]] [<- |[<- |[]]]; exact Logic.I. Qed.
Lemma oy_ok c : In c oy_code -> o_ok c.
Proof.
  intros [<- |[<- |[]]]; (split; [|exact Logic.I]); intros s [<- |[<- |[]]]; cbn [n_dim ev0 tmpn]; auto.
Qed.
Lemma oy_holds : Forall (o_holds bls_q oy_env) oy_text.
Proof.
  constructor; [|constructor; [|constructor]].
  - exists 2%Z, 2%Z, 1%Z, (1, 2, 0)%Z, (0, 0, 1)%Z. split; [reflexivity|]. split; [reflexivity|]. split; [reflexivity|exact toy_cmul].
  - exists (gl_p - 3)%Z, 2%Z, 1%Z. split; [reflexivity|]. split; [|split]; (eexists; split; [reflexivity|]).
    + unfold eqr. f_equal.
    + reflexivity.
    + reflexivity.
Qed.
(* eleven doublings in an assignment that satisfies the text *)
Definition dy_env (t : txt) : list Z :=
  (match t with TEval _ => [gl_p - 1; 0; 0] | TTmp i => [2 ^ Z.of_nat (S i) * (gl_p - 1); 0; 0] | _ => [0] end)%Z.
Lemma dy_holds r : forall n, Forall (o_holds r dy_env) (dtext n).
Proof.
  induction n as [|n IH]; cbn [dtext].
  - constructor; [|constructor]. exists (2 ^ Z.of_nat 1 * (gl_p - 1))%Z, 0%Z, 0%Z. split; [reflexivity|].
    split; [|split]; (eexists; split; [reflexivity|reflexivity]).
  - apply Forall_app. split; [exact IH|]. constructor; [|constructor].
    exists (2 ^ Z.of_nat (S (S n)) * (gl_p - 1))%Z, 0%Z, 0%Z. split; [reflexivity|]. split; [|split]; (eexists; split; [reflexivity|]); try reflexivity.
    rewrite pow2_S. unfold eqr. f_equal. lia.
Qed.

(* eval0 * Z with quotient eval0, at the point 2 over a domain of two elements *)
Definition ey_code : list instr := [mkI CMul (tmpn 0) [ev0; mkN NZ 0 None 3 false 0]].
Definition ey_text : list (txt * orhs) := [(TTmp 0, OCMul (ARef (TEval 0)) (ARef TZ))].
Definition ey_env (t : txt) : list Z :=
  (match t with TEval _ => [1; 2; 0] | TChal _ => [2; 0; 0] | TTmp _ => [3; 6; 0] | TZ => [3 + gl_p; 0; 0] | _ => [0] end)%Z.
Definition ey_ctx : vctx :=
  mkV [] [] [] [] [] [e_new (fof 1) (fof 2) (fof 0)] [] (repeat (e_new (fof 2) (fof 0) (fof 0)) 8) [] [] e_ZERO e_ZERO.
Definition ey_ev : evst := ev_push (mkEV [] []) (true, false, 4).
Lemma ey_mul a b o : fed3 a -> fed3 b -> mod3 (prod3 a b) = o -> GLCMul bls_q a b o.
Proof. intros Ha Hb <-. exact (proj1 (proj2 (proj2 (proj2 (arith_complete bls_q bls_big)))) a b Ha Hb). Qed.
Lemma ey_p1 : GLCMul bls_q (2, 0, 0)%Z (2, 0, 0)%Z (4, 0, 0)%Z.
Proof. apply ey_mul; [vm_compute; intuition discriminate|vm_compute; intuition discriminate|vm_compute; reflexivity]. Qed.
Lemma ey_p2 : GLCMul bls_q (1, 2, 0)%Z (3 + gl_p, 0, 0)%Z (3, 6, 0)%Z.
Proof. apply ey_mul; [vm_compute; intuition discriminate|vm_compute; intuition discriminate|vm_compute; reflexivity]. Qed.
Lemma ey_norm : GLNorm bls_q 0 0.
Proof. exact (proj1 (arith_complete bls_q bls_big) 0%Z ltac:(vm_compute; intuition discriminate)). Qed.
Lemma ey_centred : centred bls_q ey_env.
Proof. intros t. destruct t; cbn [ey_env]; repeat constructor. Qed.
Lemma ey_words : words_in ey_env.
Proof. intros t. destruct t; try exact Logic.I; cbn [ey_env]; repeat constructor; discriminate. Qed.
Lemma ey_in : inputs_ok (gl_env ey_env) ey_ctx.
Proof.
  constructor.
  - intros [|[|i]] v; try discriminate. intros [= <-]. split; [apply wf_new|reflexivity].
  - intros i v H. apply nth_error_In in H. apply (repeat_spec 8) in H. subst v. split; [apply wf_new|reflexivity].
  - intros [|i]; discriminate.
  - intros [|i]; discriminate.
  - discriminate.
  - discriminate.
Qed.
Lemma ey_src c s : In c ey_code -> In s (i_src c) -> src_ok (gl_env ey_env) ey_ctx 0 0 0 s.
Proof. intros [<- |[]] [<- |[<- |[]]]; [exact Logic.I|reflexivity]. Qed.
Lemma ey_ok c : In c ey_code -> o_ok c.
Proof. intros [<- |[]]; (split; [|exact Logic.I]); intros s [<- |[<- |[]]]; cbn [n_dim ev0]; auto. Qed.
Lemma ey_body : oe_body bls_q ey_env ey_text 1 1 0 (fun _ => (4, 0, 0)%Z) (fun _ => (1, 0, 0)%Z) (fun _ => (0, 0, 0)%Z) (fun _ => (1, 2, 0)%Z) (3, 6, 0)%Z.
Proof.
  split; [|split; [|split; [|split]]].
  - exists (2, 0, 0)%Z. split; [reflexivity|]. intros [|i] Hi; [exact ey_p1|lia].
  - exists (3 + gl_p)%Z, 0%Z, 0%Z. split; [reflexivity|]. split; [unfold eqr; f_equal; lia|split; reflexivity].
  - constructor; [|constructor]. exists 3%Z, 6%Z, 0%Z, (1, 2, 0)%Z, (3 + gl_p, 0, 0)%Z. split; [reflexivity|]. split; [reflexivity|].
    split; [reflexivity|exact ey_p2].
  - intros [|i] Hi; [split; reflexivity|lia].
  - exists (3 + gl_p, 0, 0)%Z. split; [reflexivity|exact ey_p2].
Qed.
Lemma ey_final : oe_final bls_q ey_env (TTmp 0) 1 (3, 6, 0)%Z.
Proof.
  exists 3%Z, 6%Z, 0%Z, 0%Z, 0%Z, 0%Z. split; [reflexivity|]. split; [split; [exact ey_norm|split; exact ey_norm]|]. split; [reflexivity|split; reflexivity].
Qed.
