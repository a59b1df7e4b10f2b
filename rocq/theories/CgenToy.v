(* Two assignments of the on-chain circuit over BLS12-381 with different query positions, and small instances. *)
From Verif Require Import Base GlModel FrField ListAux HashModel HashProof TranscriptProof BnModel TranscriptBn
  CircModel CircProof CircMore PrimeCert CgenModel CgenProof CgenBn.
From Coq Require Import String List Znumtheory.
Import ListNotations.
Open Scope nat_scope.

Definition nm (s : string) : name := NBase s.
(* absorb one value, draw one position of eight bits *)
Definition pos_ops : list gop := [OPut (nm "a") (Some 1); OPerm (nm "ys") 1 8].

Section Two.
Variable cperm : list Z -> Z -> list Z.
Variable a : Z.
Definition drawn : Z := nth 0 (cperm (a :: repeat 0%Z 15) 0%Z) 0%Z.

(* the assignment that decomposes the drawn value as the bits of m *)
Definition pos_val (m : Z) (s : sgn) : Z :=
  match s with
  | SZero => 0
  | SHash 0 i => nth i (cperm (a :: repeat 0%Z 15) 0%Z) 0
  | SBits 0 i => Z.b2z (Z.testbit m (Z.of_nat i))
  | SName (NIdx (NBase _) _) => a
  | SName (NIdx (NIdx _ _) j) => Z.b2z (Z.testbit m (Z.of_nat j))
  | _ => 0
  end%Z.

Lemma bits_seq m : forall n j, (0 <= m)%Z -> bsum (map (fun i => Z.b2z (Z.testbit m (Z.of_nat i))) (seq j n)) = ((m / 2 ^ Z.of_nat j) mod 2 ^ Z.of_nat n)%Z.
Proof.
  induction n as [|n IH]; intros j Hm; cbn [seq map bsum]; [rewrite Z.mod_1_r; reflexivity|].
  rewrite IH by exact Hm. rewrite !Nat2Z.inj_succ, !Z.pow_succ_r by lia.
  rewrite Z.testbit_eqb by lia.
  assert (P1 : (0 < 2 ^ Z.of_nat j)%Z) by (apply Z.pow_pos_nonneg; lia).
  assert (P2 : (0 < 2 ^ Z.of_nat n)%Z) by (apply Z.pow_pos_nonneg; lia).
  rewrite (Z.mul_comm 2 (2 ^ Z.of_nat j)), <- Z.div_div by lia.
  set (y := (m / 2 ^ Z.of_nat j)%Z). rewrite Zmod_odd. rewrite (Z.rem_mul_r y 2 (2 ^ Z.of_nat n)) by lia.
  rewrite Zmod_odd. destruct (Z.odd y); reflexivity.
Qed.

Lemma pos_holds r m : (1 < r)%Z -> felt r drawn -> (0 <= m < 2 ^ 255)%Z -> (m mod r = drawn)%Z ->
  exists g, gq_run pos_ops gq_new = Ok g /\ Forall (stm_q r cperm false (pos_val m)) (gq_code g).
Proof.
  intros Hr Hd Hm Em. eexists. split; [vm_compute; reflexivity|]. cbn [gq_code].
  apply Forall_cons; [|apply Forall_cons].
  - intros i Hi. reflexivity.
  - unfold stm_q. set (n := 255) in *.
    assert (EN : (2 ^ 255 = 2 ^ Z.of_nat n)%Z) by reflexivity. clearbody n. split; [rewrite map_length, seq_length; reflexivity|].
    assert (B : Forall bit01 (map (fun i => pos_val m (SBits 0 i)) (seq 0 n))).
    { apply Forall_forall. intros x Hx. apply in_map_iff in Hx. destruct Hx as (i & <- & _). cbn [pos_val].
      destruct (Z.testbit m (Z.of_nat i)); [right|left]; reflexivity. }
    split; [eapply Forall_impl; [|exact B]; intros b; apply bit_of_01; exact Hr|].
    change (pos_val m (SHash 0 0)) with drawn. split; [exact Hd|]. unfold eqr.
    change (fun i => pos_val m (SBits 0 i)) with (fun i => Z.b2z (Z.testbit m (Z.of_nat i))).
    rewrite bits_seq by lia. change (Z.of_nat 0) with 0%Z. rewrite Z.pow_0_r, Z.div_1_r, <- EN, (Z.mod_small m) by exact Hm.
    rewrite Em. symmetry. apply Z.mod_small. exact Hd.
  - repeat (apply Forall_cons; [reflexivity|]). apply Forall_nil.
Qed.

Lemma pos_reads m : (0 <= m)%Z -> reads (fun x => pos_val m (SName x)) (OPerm (nm "ys") 1 8) = [(m mod 256)%Z].
Proof.
  intros Hm. cbn [reads]. cbn [seq map]. f_equal.
  pose proof (bits_seq m 8 0 Hm) as E. change (Z.of_nat 0) with 0%Z in E. rewrite Z.pow_0_r, Z.div_1_r in E.
  change (2 ^ Z.of_nat 8)%Z with 256%Z in E. rewrite <- E. reflexivity.
Qed.

Theorem two_positions : (0 <= drawn < 2 ^ 255 - bls_q)%Z -> (0 <= a < bls_q)%Z ->
  exists g val val', gq_run pos_ops gq_new = Ok g /\
    Forall (stm_q bls_q cperm false val) (gq_code g) /\ Forall (stm_q bls_q cperm false val') (gq_code g) /\
    val (SName (NIdx (nm "a") 0)) = a /\ val' (SName (NIdx (nm "a") 0)) = a /\
    reads (fun x => val (SName x)) (OPerm (nm "ys") 1 8) = [(drawn mod 256)%Z] /\
    reads (fun x => val' (SName x)) (OPerm (nm "ys") 1 8) = [((drawn + 1) mod 256)%Z].
Proof.
  intros Hd Ha.
  assert (KB : (2 ^ 255 - bls_q < bls_q)%Z) by reflexivity. assert (K1 : (1 < bls_q)%Z) by reflexivity.
  assert (KM : (bls_q mod 256 = 1)%Z) by reflexivity. set (x := drawn) in *.
  assert (Fx : felt bls_q x) by (unfold felt; lia).
  destruct (pos_holds bls_q x K1 Fx ltac:(lia) (Z.mod_small _ _ Fx)) as (g & E & H1).
  destruct (pos_holds bls_q (x + bls_q)%Z K1 Fx) as (g2 & E2 & H2).
  { lia. } { change drawn with x. rewrite <- (Z.mul_1_l bls_q) at 1. rewrite Z_mod_plus_full. apply Z.mod_small. exact Fx. }
  assert (g2 = g) by congruence. subst g2.
  exists g, (pos_val x), (pos_val (x + bls_q)%Z). split; [exact E|]. split; [exact H1|]. split; [exact H2|].
  split; [reflexivity|]. split; [reflexivity|]. split; [apply pos_reads; lia|].
  rewrite pos_reads by lia. rewrite Zplus_mod, KM. rewrite (Zplus_mod x 1). reflexivity.
Qed.
End Two.

(** ** a small instance over the Goldilocks field *)
Definition toy_perm (i s : list Fr) : list Fr := map (fun k => fadd (hd f0 i) (fof (Z.of_nat k))) (seq 5 12).
Definition toy_ops : list gop := [OPut (nm "a") (Some 1); OField (nm "c"); OPerm (nm "ys") 2 3].
Definition toy_val (s : sgn) : Fr :=
  match s with
  | SHash 0 i => nth i (toy_perm [fof 2] []) f0
  | SBits 0 i => fof (Z.b2z (Z.testbit 10 (Z.of_nat i)))
  | SName (NIdx (NBase "a") 0) => fof 2
  | SName (NIdx (NBase "c") i) => nth i (toy_perm [fof 2] []) f0
  | SName (NIdx (NIdx (NBase "ys") i) j) => fof (Z.b2z (Z.testbit 10 (Z.of_nat (i * 3 + j))))
  | _ => f0
  end%string%Z.

Lemma toy_holds : exists g, gg_run toy_ops gg_new = Ok g /\ Forall (stm_gl toy_perm toy_val) (gg_code g) /\
  map (reads (fun x => fint (toy_val (SName x)))) toy_ops = [[]; [7; 8; 9]; [2; 1]]%Z.
Proof.
  eexists. split; [vm_compute; reflexivity|]. split; [|vm_compute; reflexivity]. cbn [gg_code].
  apply Forall_cons; [intros i Hi; reflexivity|].
  do 3 (apply Forall_cons; [vm_compute; reflexivity|]).
  apply Forall_cons; [|repeat (apply Forall_cons; [vm_compute; reflexivity|]); apply Forall_nil].
  intros i Hi. change (fint (toy_val (SHash 0 3))) with (fint (nth 3 (toy_perm [fof 2] []) f0)).
  assert (E : fint (nth 3 (toy_perm [fof 2] []) f0) = 10%Z) by (vm_compute; reflexivity). rewrite E. reflexivity.
Qed.
