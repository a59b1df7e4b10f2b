(* Example for the on-chain query: the instance of VqueryToy. *)
From Verif Require Import Base NumTheory GlModel GlProof FrField Cubic F3gModel F3gProof PolyModel Roots CodegenModel InterpModel VerifierModel
  HashModel StarkModel UnrollModel UnrollProof VqueryModel VqueryProof VqueryToy BnModel CircModel CircProof CircToy OnchModel OnchProof OnchEval
  OnchToy OqueryModel OqueryProof.
From Verif Require FriModel.
From Coq Require Import Lia.
Open Scope nat_scope.
Open Scope res_scope.

Definition qy_d1 : sig3 := (11113755076965009892, 10134015419499822575, 8828323311152044921)%Z.
Definition qy_d2 : sig3 := (895208023913035253, 9572153363105861266, 6971705032909558756)%Z.
Definition qy_xd : sig3 := (8828323311152044922, 1495334318702470492, 10134015419499822575)%Z.
Definition qy_xdw : sig3 := (11475039036505025566, 10579831012591990312, 8874590706308723055)%Z.
Definition qy_t0 : sig3 := (7248128416931055968, 7476671593512352460, 13776588958669944233)%Z.
Definition qy_t1 : sig3 := (7248128416931055969, 7476671593512352462, 13776588958669944236)%Z.
Definition qy_t2 : sig3 := (18723167453436081535, 18056502606104342774, 22651179664978667291)%Z.
Definition qy_out : sig3 := (276423384021497214, 18056502606104342774, 4204435595564082970)%Z.
Definition l3 (a : sig3) : list Z := let '(x, y, z) := a in [x; y; z].
Definition qy_env (t : txt) : list Z :=
  (match t with
   | TChal _ => [0; 1; 0] | TTree 1 _ => [5] | TTree _ _ => [1; 2; 3] | TConst _ => [7] | TZ => [0; 0; 0] | TXd => l3 qy_xd | TXdw => l3 qy_xdw
   | TTmp O => l3 qy_t0 | TTmp 1%nat => l3 qy_t1 | TTmp _ => l3 qy_t2 | _ => []
   end)%Z.
Definition qy_vals (t : nat) : list Z := (match t with 1%nat => [5] | 4%nat => [1; 2; 3] | _ => [] end)%Z.
Definition qy_prog : list (txt * orhs) :=
  [(TTmp 0, OCMul (AEmb (TTree 1 0)) (ARef TXd));
   (TTmp 1, OVec (XAdd (XIdx (TTmp 0) 0) (XIdx (TTree 4 0) 0)) (XAdd (XIdx (TTmp 0) 1) (XIdx (TTree 4 0) 1)) (XAdd (XIdx (TTmp 0) 2) (XIdx (TTree 4 0) 2)));
   (TTmp 2, OVec (XAdd (XIdx (TTmp 1) 0) (XIdx TXdw 0)) (XAdd (XIdx (TTmp 1) 1) (XIdx TXdw 1)) (XAdd (XIdx (TTmp 1) 2) (XIdx TXdw 2)))].
Definition qy_x (i : nat) : Z := match i with 0 => 49%Z | _ => (gl_p - 49)%Z end.

Lemma qy_centred : centred bls_q qy_env.
Proof. intros t. destruct t; cbn [qy_env]; repeat match goal with |- context [match ?n with _ => _ end] => destruct n end; cbn [l3 qy_xd qy_xdw qy_t0 qy_t1 qy_t2]; repeat constructor. Qed.
Lemma qy_words : words_in qy_env.
Proof.
  intros t. destruct t; try exact Logic.I; cbn [qy_env]; repeat match goal with |- context [match ?n with _ => _ end] => destruct n end; cbn [l3 qy_xd qy_xdw];
    repeat constructor; discriminate.
Qed.
Lemma qy_ok c : In c (pg_query vy_pg) -> o_ok c.
Proof.
  intros [<- |[<- |[<- |[]]]]; (split; [intros s [<- |[<- |[]]]; cbn [n_dim vy_t1 vy_t4]; auto|]); try exact Logic.I; left; discriminate.
Qed.
Lemma qy_in : inputs_ok (gl_env qy_env) (mkV [] [] [] [] (fst (nth 4 vy_q ([], []))) (sp_evals vy_p) (sp_publics vy_p) vy_ch [] [] e_ZERO e_ZERO).
Proof.
  constructor.
  - intros [|i]; discriminate.
  - intros i v H. apply nth_error_In in H. apply (repeat_spec 8) in H. subst v. split; [apply wf_new|].
    unfold gl_env. cbn [qy_env map]. rewrite fof_0, fof_1. reflexivity.
  - intros [|i]; discriminate.
  - intros [|[|i]] a; try discriminate. intros [= <-]. reflexivity.
  - discriminate.
  - discriminate.
Qed.
Lemma qy_v t : 1 <= t <= 4 -> map fof (qy_vals t) = fst (nth (t - 1) vy_q ([], [])).
Proof.
  intros H. destruct t as [|[|[|[|[|t]]]]]; try lia; reflexivity.
Qed.
Lemma qy_maps : om_holds qy_env (si_map vy_si) vy_ms qy_vals.
Proof.
  intros t i p s pos dim Ht Hi Hp. destruct t as [|[|[|[|[|t]]]]]; try lia; destruct i as [|[|i]]; try discriminate Hi;
    injection Hi as <-; injection Hp as <- <- <-.
  - exists 5%Z. split; reflexivity.
  - exists 1%Z, 2%Z, 3%Z. repeat split.
Qed.
Lemma qy_rng x : (0 <= x < 2 ^ 64)%Z -> ranged bls_q 64 x.
Proof.
  intros H. assert (L : (2 ^ 64 < bls_q)%Z) by reflexivity. apply ranged_complete; [reflexivity| |exact H]. unfold felt. lia.
Qed.
Lemma qy_inv i v : fed3 i -> word3 v -> mod3 (prod3 i v) = (1, 0, 0)%Z -> GLCInv bls_q i v.
Proof.
  intros Hi Hv E. split; [destruct v as [[a b] c]; destruct Hv as (A & B & C); split; [|split]; apply qy_rng; assumption|].
  exists 1%Z, 0%Z, 0%Z. split; [|split; [|split]; reflexivity]. apply ey_mul; [exact Hi| |exact E].
  destruct v as [[a b] c]. destruct Hv as (A & B & C). unfold fed3, fed. change (2 ^ 68)%Z with (16 * 2 ^ 64)%Z. unfold gl_p. lia.
Qed.
Ltac nums := vm_compute; intuition discriminate.
Lemma qy_point : oq_point bls_q 2 vy_ys qy_x.
Proof.
  split; [vm_compute; reflexivity|]. intros [|i] Hi; [|lia].
  assert (E : qy_x 1 = ((49 * (bitz (vy_ys 1) * (nth (2 - 1) circ_roots 0 - 1) + 1)) mod gl_p)%Z) by (vm_compute; reflexivity).
  rewrite E. apply (proj1 (proj2 (arith_complete bls_q bls_big))); nums.
Qed.
Lemma qy_div : oq_div bls_q qy_env 1 (qy_x 1) qy_d1 qy_d2.
Proof.
  exists 0%Z, 1%Z, 0%Z, 0%Z, (gl_p - 1)%Z, 0%Z. split; [reflexivity|]. split; [|split].
  - split; [apply qy_inv; [nums|nums|vm_compute; reflexivity]|]. eexists _, _, _. split; [reflexivity|].
    apply ey_mul; [nums|nums|vm_compute; reflexivity].
  - apply ey_mul; [nums|nums|vm_compute; reflexivity].
  - split; [apply qy_inv; [nums|nums|vm_compute; reflexivity]|]. eexists _, _, _. split; [reflexivity|].
    apply ey_mul; [nums|nums|vm_compute; reflexivity].
Qed.
Lemma qy_holds : Forall (o_holds bls_q qy_env) qy_prog.
Proof.
  constructor; [|constructor; [|constructor; [|constructor]]].
  - eexists _, _, _, (5, 0, 0)%Z, qy_xd. split; [reflexivity|]. split; [reflexivity|]. split; [reflexivity|].
    apply ey_mul; [nums|nums|vm_compute; reflexivity].
  - eexists _, _, _. split; [reflexivity|]. split; [|split]; (eexists; split; [reflexivity|vm_compute; reflexivity]).
  - eexists _, _, _. split; [reflexivity|]. split; [|split]; (eexists; split; [reflexivity|vm_compute; reflexivity]).
Qed.
Lemma qy_nrm i o : (- 16 * gl_p <= i < 1000 * gl_p)%Z -> (i mod gl_p)%Z = o -> GLNorm bls_q i o.
Proof. intros H <-. exact (proj1 (arith_complete bls_q bls_big) i H). Qed.
Lemma qy_norm : GLCNorm bls_q qy_t2 qy_out.
Proof. split; [|split]; (apply qy_nrm; [nums|vm_compute; reflexivity]). Qed.
Lemma qy_body : oq_body bls_q qy_env (si_map vy_si) vy_ms qy_vals 1 2 vy_ys qy_prog (TTmp 2) qy_out.
Proof.
  split; [exact qy_maps|]. split; [exists qy_x, qy_d1, qy_d2; exact (conj qy_point qy_div)|]. split; [exact qy_holds|].
  exists qy_t2. split; [reflexivity|exact qy_norm].
Qed.
