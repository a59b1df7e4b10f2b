(* Example for the query circuit. *)
From Verif Require Import Base NumTheory GlModel GlProof FrField Cubic F3gModel F3gProof PolyModel Roots CodegenModel InterpModel VerifierModel
  HashModel StarkModel ParModel UnrollModel UnrollProof UnrollEval VqueryModel VqueryProof.
From Verif Require FriModel.
From Coq Require Import Lia.
Open Scope nat_scope.
Open Scope res_scope.

(* a column in tree 1, an element of dimension three in tree 4, a constant; the query at index 2 of a domain of four points *)
Definition vy_si : sinfo := mkSI [(Scm1_2ns, 0, 1); (Scm4_2ns, 0, 3)] [] [0; 1] [] (fun _ => 0) 1 1 1 2.
Definition vy_ms (t : nat) : list nat := match t with 1 => [0] | 4 => [1] | _ => [] end.
Definition vy_t1 : node := mkN Ntree1 0 None 1 false 0.
Definition vy_t4 : node := mkN Ntree4 1 None 3 false 0.
Definition vy_code : list instr :=
  [mkI CMul (mkN Ntmp 0 None 3 false 0) [vy_t1; mkN NxDivXSubXi 0 None 3 false 0];
   mkI CAdd (mkN Ntmp 1 None 3 false 0) [mkN Ntmp 0 None 3 false 0; vy_t4];
   mkI CAdd (mkN Ntmp 2 None 3 false 0) [mkN Ntmp 1 None 3 false 0; mkN NxDivXSubWXi 0 None 3 false 0]].
Definition vy_pg : program := mkP (mkSeg [] 0) (mkSeg [] 0) [] vy_code (mkEV [] []) [].
Definition vy_perm (_ _ : list Fr) : list Fr := zero4.
Definition vy_q : list FriModel.opening := [([fof 5], []); ([], []); ([], []); ([f1; fof 2; fof 3], []); ([fof 7], [])].
Definition vy_root (i : nat) : list Fr :=
  match root_from_group_proof vy_perm [] 2 (fst (nth i vy_q ([], []))) with Ok r => r | _ => [] end.
Definition vy_p : sproof := mkSP (vy_root 0) (vy_root 1) (vy_root 2) (vy_root 3) (FriModel.mkFP [] []) [] [].
Definition vy_xi : F3G := e_new f0 f1 f0.
Definition vy_ch : list F3G := repeat vy_xi 8.
Definition vy_ys (i : nat) : bool := Nat.eqb i 1.

Definition vy_xacc (i : nat) : Fr :=
  match i with 0 => SHIFT | _ => fmul SHIFT (fadd (fmul f1 (fsub (vq_root 1) f1)) f1) end.
Definition vy_x : Fr := vy_xacc 1.
Definition vy_k : K := mkK f0 f1 f0.
Definition vy_d (w : Fr) : K := kinv (mkK (fsub vy_x (fmul w (k0 vy_k))) (fmul (fneg w) (k1 vy_k)) (fmul (fneg w) (k2 vy_k))).
Definition vy_d1 : K := kinv (mkK (fsub vy_x (k0 vy_k)) (fneg (k1 vy_k)) (fneg (k2 vy_k))).
Definition vy_d2 : K := vy_d (vq_root 1).
Definition vy_scale (a : Fr) (d : K) : list Fr := [fmul a (k0 d); fmul a (k1 d); fmul a (k2 d)].
Definition vy_add (l m : list Fr) : list Fr :=
  match l, m with [a; b; c], [x; y; z] => [fadd a x; fadd b y; fadd c z] | _, _ => [] end.
Definition vy_tmp0 (x : Fr) (d1 : K) : list Fr := [fmul (fof 5) (fmul x (k0 d1)); fmul (fof 5) (fmul x (k1 d1)); fmul (fof 5) (fmul x (k2 d1))].
Definition vy_tmp1 (x : Fr) (d1 : K) : list Fr := vy_add (vy_tmp0 x d1) [f1; fof 2; fof 3].
Definition vy_envp (x : Fr) (d1 d2 : K) (t : txt) : list Fr :=
  match t with
  | TChal _ => [f0; f1; f0] | TTree 1 _ => [fof 5] | TTree _ _ => [f1; fof 2; fof 3] | TConst _ => [fof 7]
  | TZ => [f0; f0; f0] | TXd => vy_scale x d1 | TXdw => vy_scale x d2
  | TTmp O => vy_tmp0 x d1 | TTmp 1 => vy_tmp1 x d1 | TTmp _ => vy_add (vy_tmp1 x d1) (vy_scale x d2)
  | _ => []
  end.
Definition vy_env : txt -> list Fr := vy_envp vy_x vy_d1 vy_d2.
Definition vy_prog : list (txt * rhs) :=
  [(TTmp 0, RVec (XMul (XRef (TTree 1 0)) (XIdx TXd 0)) (XMul (XRef (TTree 1 0)) (XIdx TXd 1)) (XMul (XRef (TTree 1 0)) (XIdx TXd 2)));
   (TTmp 1, RVec (XAdd (XIdx (TTmp 0) 0) (XIdx (TTree 4 0) 0)) (XAdd (XIdx (TTmp 0) 1) (XIdx (TTree 4 0) 1)) (XAdd (XIdx (TTmp 0) 2) (XIdx (TTree 4 0) 2)));
   (TTmp 2, RVec (XAdd (XIdx (TTmp 1) 0) (XIdx TXdw 0)) (XAdd (XIdx (TTmp 1) 1) (XIdx TXdw 1)) (XAdd (XIdx (TTmp 1) 2) (XIdx TXdw 2)))].

Lemma vy_layout : layout_ok vy_si vy_ms 1 0 0.
Proof.
  constructor; try reflexivity. intros t p s pos dim Hp Hm.
  destruct t as [|[|[|[|[|t]]]]]; cbn [vy_ms In] in Hp; try contradiction; destruct Hp as [<- |[]]; injection Hm as <- _ _; reflexivity.
Qed.
Lemma vy_src c r : In c (pg_query vy_pg) -> In r (i_src c) -> q_src vy_si r.
Proof.
  intros [<- |[<- |[<- |[]]]] [<- |[<- |[]]]; try exact Logic.I.
  - exists (mkN Ncm 0 None 1 false 0). split; reflexivity.
  - exists (mkN Ncm 1 None 3 false 0). split; reflexivity.
Qed.
Lemma vy_in : inputs_ok vy_env (mkV [] [] [] [] (fst (nth 4 vy_q ([], []))) (sp_evals vy_p) (sp_publics vy_p) vy_ch [] [] e_ZERO e_ZERO).
Proof.
  constructor.
  - intros [|i]; discriminate.
  - intros i v H. apply nth_error_In in H. apply (repeat_spec 8) in H. subst v. split; [apply wf_new|reflexivity].
  - intros [|i]; discriminate.
  - intros [|[|i]] a; try discriminate. intros [= <-]. reflexivity.
  - discriminate.
  - discriminate.
Qed.
Section Inv.
Local Transparent kzero kone.
Lemma vy_inv a b c : b <> f0 -> kmul (mkK a b c) (kinv (mkK a b c)) = mkK f1 f0 f0.
Proof.
  intros Hb. change (mkK f1 f0 f0) with kone. assert (N : mkK a b c <> kzero) by (intros [= _ E _]; exact (Hb E)).
  pose proof (kinv_l _ N) as E. transitivity (kmul (kinv (mkK a b c)) (mkK a b c)); [ring|exact E].
Qed.
End Inv.
Lemma vy_stms x d1 d2 : Forall (s_holds (vy_envp x d1 d2)) vy_prog.
Proof. repeat constructor. Qed.
Lemma vy_maps x d1 d2 : mv_holds (vy_envp x d1 d2) (si_map vy_si) vy_ms (fun t => fst (nth (t - 1) vy_q ([], []))).
Proof.
  intros t i p s pos dim Ht Hi Hp. destruct t as [|[|[|[|[|t]]]]]; try lia; destruct i as [|[|i]]; try discriminate Hi;
    injection Hi as <-; injection Hp as <- <- <-.
  - exists (fof 5). split; reflexivity.
  - exists f1, (fof 2), (fof 3). repeat split.
Qed.
Lemma vy_xa0 : vy_xacc 0 = SHIFT.
Proof. reflexivity. Qed.
Lemma vy_xa1 : vy_xacc 1 = fmul SHIFT (fadd (fmul f1 (fsub (vq_root 1) f1)) f1).
Proof. reflexivity. Qed.
Lemma vy_b0 : fbit (vy_ys 0) = f0.
Proof. reflexivity. Qed.
Lemma vy_b1 : fbit (vy_ys 1) = f1.
Proof. reflexivity. Qed.
Lemma vy_zero (s r : Fr) : s = fadd (fmul f0 (fsub (fmul s r) s)) s.
Proof. ring. Qed.
Lemma vy_acc : vq_xacc 2 vy_ys vy_xacc.
Proof.
  split.
  - rewrite vy_xa0, vy_b0. exact (vy_zero SHIFT (vq_root 2)).
  - intros [|i] Hi; [|lia]. rewrite vy_xa0, vy_b1. exact vy_xa1.
Qed.
Lemma vy_nz w : w <> f0 -> fmul (fneg w) f1 <> f0.
Proof. intros H E. apply H. transitivity (fneg (fmul (fneg w) f1)); [ring|rewrite E; ring]. Qed.
Lemma vy_divs x w : w <> f0 -> w = vq_root 1 -> let d1 := kinv (mkK (fsub x (k0 vy_k)) (fneg (k1 vy_k)) (fneg (k2 vy_k))) in
  let d2 := kinv (mkK (fsub x (fmul w (k0 vy_k))) (fmul (fneg w) (k1 vy_k)) (fmul (fneg w) (k2 vy_k))) in
  vq_div (vy_envp x d1 d2) 1 x vy_k d1 d2.
Proof.
  intros Hw E d1 d2. unfold vq_div. rewrite <- E. split; [reflexivity|]. split.
  { apply vy_inv. cbn [k1 vy_k]. intros H. apply Hw. transitivity (fmul (fneg w) (fneg f1)); [ring|rewrite H; ring]. }
  split; [reflexivity|]. split; [apply vy_inv, vy_nz, Hw|reflexivity].
Qed.
Lemma vy_w : vq_root 1 <> f0.
Proof. vm_compute. discriminate. Qed.
Lemma vy_body : vq_body vy_env (si_map vy_si) vy_ms (fun t => fst (nth (t - 1) vy_q ([], []))) 1 2 vy_ys vy_prog.
Proof.
  split; [apply vy_maps|split].
  - exists vy_xacc, vy_k, vy_d1, vy_d2. split; [exact vy_acc|]. exact (vy_divs vy_x (vq_root 1) vy_w eq_refl).
  - apply vy_stms.
Qed.
Lemma vy_ran : exists l, check_query vy_perm vy_si vy_pg (vy_root 4) vy_p vy_ch vy_q 2 = Ok l.
Proof.
  assert (E : match check_query vy_perm vy_si vy_pg (vy_root 4) vy_p vy_ch vy_q 2 with Ok _ => true | _ => false end = true) by (vm_compute; reflexivity).
  destruct (check_query vy_perm vy_si vy_pg (vy_root 4) vy_p vy_ch vy_q 2) as [l| | |]; try discriminate. exists l. reflexivity.
Qed.
