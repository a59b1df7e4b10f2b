(* Pocklington's criterion, and the prime of a scalar field. *)
From Verif Require Import Base NumTheory BnModel.
From Coq Require Import Znumtheory.
Open Scope Z_scope.

Lemma prod_factor : forall L g h, Forall prime L -> 0 < g -> 1 < h -> g * h = zprod L ->
  exists l, In l L /\ (l | h).
Proof.
  induction L as [|l L IH]; intros g h HL Hg Hh E.
  - cbn in E. nia.
  - pose proof (Forall_inv HL) as Pl. pose proof (Forall_inv_tail HL) as PL.
    destruct (Zdivide_dec l h) as [D|D]; [exists l; split; [left; reflexivity|exact D]|].
    assert (R : rel_prime h l) by (apply rel_prime_sym, prime_rel_prime; assumption).
    assert (Dh : (h | zprod L)).
    { apply (Gauss h l (zprod L)); [|exact R]. exists g. cbn in E. fold (zprod L) in E. lia. }
    destruct Dh as [g' Eg]. destruct (IH g' h PL) as [l' [I' D']]; [|exact Hh|lia|].
    + assert (0 < zprod L).
      { clear -PL. induction PL as [|x L Px PL IH]; cbn; [lia|]. fold (zprod L). destruct Px. nia. }
      nia.
    + exists l'. split; [right; exact I'|exact D'].
Qed.

Section Pocklington.
Variables (N a R : Z) (L : list Z).
Let F := zprod L.
Hypothesis HN : 1 < N.
Hypothesis HF : N - 1 = F * R.
Hypothesis HF0 : 0 < F.
Hypothesis HR0 : 0 < R.
Hypothesis HL : Forall prime L.
Hypothesis Hsq : N < F * F.
Hypothesis Ha : powm N a (N - 1) = 1.
Hypothesis Hg : Forall (fun l => Z.gcd (powm N a ((N - 1) / l) - 1) N = 1) L.

Lemma pow_one d b n : 1 < d -> 0 <= n -> b mod d = 1 -> b ^ n mod d = 1.
Proof. intros Hd Hn H. rewrite <- pow_mod, H by lia. rewrite Z.pow_1_l by exact Hn. apply Z.mod_1_l. exact Hd. Qed.

Section Divisor.
Variable d : Z.
Hypothesis Hd : 1 < d.
Hypothesis HdN : (d | N).
Let b := a ^ R.

Lemma b_full : b ^ F mod d = 1.
Proof.
  unfold b. rewrite <- Z.pow_mul_r by lia. replace (R * F) with (N - 1) by lia.
  rewrite powm_spec in Ha by lia.
  rewrite (mod_divisor _ 1 d N) by (try lia; try exact HdN; rewrite Ha, Z.mod_1_l by exact HN; reflexivity).
  apply Z.mod_1_l. exact Hd.
Qed.

Lemma b_none j : 0 < j < F -> b ^ j mod d <> 1.
Proof.
  intros Hj E. pose proof (Zgcd_is_gcd j F) as G. set (g := Z.gcd j F) in *.
  assert (Hg0 : 0 < g).
  { pose proof (Z.gcd_nonneg j F). fold g in H. assert (g <> 0); [|lia]. intros Q. unfold g in Q. apply Z.gcd_eq_0_l in Q. lia. }
  destruct G as [[j' Ej] [h Eh] _].
  assert (Hgj : g <= j) by (apply Z.divide_pos_le; [lia|exists j'; exact Ej]).
  destruct (Z.gcd_bezout j F g eq_refl) as [u [v Euv]].
  assert (Eg : b ^ g mod d = 1).
  { set (t := Z.abs u + Z.abs v). 
    assert (T0 : 0 <= t /\ - t <= u /\ v <= t) by (unfold t; lia). clearbody t.
    assert (U : 0 <= u + t * F) by (assert (t * 1 <= t * F) by (apply Z.mul_le_mono_nonneg_l; lia); lia).
    assert (W : 0 <= t * j - v) by (assert (t * 1 <= t * j) by (apply Z.mul_le_mono_nonneg_l; lia); lia).
    assert (X : (u + t * F) * j = g + (t * j - v) * F) by (rewrite <- Euv; ring).
    assert (Y : b ^ ((u + t * F) * j) mod d = 1).
    { rewrite Z.mul_comm, Z.pow_mul_r by lia. apply pow_one; assumption. }
    rewrite X, Z.pow_add_r, Z.mul_mod in Y by (try apply Z.mul_nonneg_nonneg; lia).
    rewrite (Z.mul_comm _ F), Z.pow_mul_r in Y by lia.
    rewrite (pow_one d (b ^ F)) in Y by (try assumption; exact b_full).
    rewrite Z.mul_1_r, Z.mod_mod in Y by lia. exact Y. }
  assert (Hh : 1 < h) by (clear -Eh Hj Hgj Hg0; nia).
  destruct (prod_factor L g h HL Hg0 Hh ltac:(fold F; lia)) as [l [Il [h' Eh']]].
  assert (Pl : prime l) by (rewrite Forall_forall in HL; apply HL; exact Il). destruct Pl as [Hl1 _].
  rewrite Forall_forall in Hg. specialize (Hg l Il).
  assert (Q : (N - 1) / l = R * (g * h')).
  { rewrite HF, Eh, Eh'. replace (h' * l * g * R) with (R * (g * h') * l) by ring. apply Z.div_mul. lia. }
  assert (Hh' : 0 <= h') by (clear -Eh' Hh Hl1; nia).
  assert (Hgh : 0 <= g * h') by (apply Z.mul_nonneg_nonneg; lia).
  assert (HR : 0 <= R * (g * h')) by (apply Z.mul_nonneg_nonneg; lia).
  rewrite Q in Hg. rewrite powm_spec in Hg by lia.
  assert (D1 : (d | a ^ (R * (g * h')) mod N - 1)).
  { apply mod_eq_divide; [lia|]. rewrite <- (mod_divisor (a ^ (R * (g * h'))) (a ^ (R * (g * h')) mod N) d N);
      [|lia|lia|exact HdN|rewrite Z.mod_mod by lia; reflexivity].
    rewrite Z.pow_mul_r by lia. fold b. rewrite Z.pow_mul_r by lia. rewrite (pow_one d (b ^ g)) by assumption.
    symmetry. apply Z.mod_1_l. exact Hd. }
  pose proof (Z.gcd_greatest _ _ d D1 HdN) as D2. rewrite Hg in D2. apply Z.divide_1_r_nonneg in D2; lia.
Qed.

Lemma b_inj i j : 0 <= i < j -> j < F -> b ^ i mod d <> b ^ j mod d.
Proof.
  intros Hi Hj E. apply (b_none (j - i)); [lia|].
  assert (X : (b ^ (F - i) * b ^ i) mod d = (b ^ (F - i) * b ^ j) mod d)
    by (rewrite Z.mul_mod, E, <- Z.mul_mod by lia; reflexivity).
  rewrite <- !Z.pow_add_r in X by lia. replace (F - i + i) with F in X by lia.
  replace (F - i + j) with (F + (j - i)) in X by lia. rewrite (Z.pow_add_r b F) in X by lia.
  rewrite b_full, Z.mul_mod, b_full, Z.mul_1_l, Z.mod_mod in X by lia. symmetry. exact X.
Qed.

Lemma NoDup_map_in {A B} (f : A -> B) : forall l, (forall x y, In x l -> In y l -> f x = f y -> x = y) ->
  NoDup l -> NoDup (map f l).
Proof.
  induction l as [|x l IH]; intros Hinj HN'; cbn; constructor.
  - intros Hin. apply in_map_iff in Hin. destruct Hin as [y [Hy1 Hy2]].
    inversion HN' as [|? ? Hx Hl]; subst. apply Hx.
    rewrite (Hinj x y); [exact Hy2|left; reflexivity|right; exact Hy2|symmetry; exact Hy1].
  - inversion HN'; subst. apply IH; [|assumption]. intros; apply Hinj; cbn; auto.
Qed.

Lemma d_bound : F <= d.
Proof.
  set (M := map (fun i => b ^ Z.of_nat i mod d) (seq 0 (Z.to_nat F))).
  assert (H1 : NoDup M).
  { apply NoDup_map_in; [|apply seq_NoDup]. intros x y Hx Hy E. apply in_seq in Hx, Hy.
    destruct (Nat.lt_trichotomy x y) as [C|[C|C]]; [|exact C|]; exfalso.
    - apply (b_inj (Z.of_nat x) (Z.of_nat y)); [lia|lia|exact E].
    - apply (b_inj (Z.of_nat y) (Z.of_nat x)); [lia|lia|symmetry; exact E]. }
  assert (H2 : incl M (map Z.of_nat (seq 0 (Z.to_nat d)))).
  { intros x Hx. unfold M in Hx. apply in_map_iff in Hx. destruct Hx as [i [<- _]].
    pose proof (Z.mod_pos_bound (b ^ Z.of_nat i) d ltac:(lia)).
    apply in_map_iff. exists (Z.to_nat (b ^ Z.of_nat i mod d)). split; [lia|].
    apply in_seq. lia. }
  pose proof (NoDup_incl_length H1 H2) as HL'. unfold M in HL'.
  rewrite !map_length, !seq_length in HL'. lia.
Qed.
End Divisor.

Lemma pocklington : prime N.
Proof.
  destruct (prime_dec N) as [H|H]; [exact H|exfalso].
  destruct (not_prime_divide N HN H) as [d [Hd [e Ee]]].
  assert (He : 1 < e) by (clear -Ee Hd HN; nia).
  pose proof (d_bound d ltac:(lia) ltac:(exists e; exact Ee)).
  pose proof (d_bound e He ltac:(exists d; lia)). clear -Ee H0 H1 Hsq HF0. nia.
Qed.
End Pocklington.

(* the conditions on the factors as one computation *)
Definition cert_ok (N a R : Z) (L : list Z) : bool :=
  let F := zprod L in
  (1 <? N) && (N - 1 =? F * R) && (0 <? F) && (0 <? R) && (N <? F * F) && (powm N a (N - 1) =? 1)
  && forallb (fun l => Z.gcd (powm N a ((N - 1) / l) - 1) N =? 1) (nodup Z.eq_dec L).

Lemma cert_prime N a R L : Forall prime L -> cert_ok N a R L = true -> prime N.
Proof.
  intros HL H. unfold cert_ok in H. repeat (apply andb_prop in H as [H ?]).
  apply (pocklington N a R L); try assumption; try (apply Z.ltb_lt; assumption); try (apply Z.eqb_eq; assumption).
  rewrite forallb_forall in H0. apply Forall_forall. intros l Hl. apply Z.eqb_eq. apply H0.
  apply nodup_In. exact Hl.
Qed.

(* trial division *)
Fixpoint no_div (fuel : nat) (d n : Z) : bool :=
  match fuel with O => false | S f => if n <? d * d then true else if n mod d =? 0 then false else no_div f (d + 1) n end.
Lemma no_div_spec : forall f d n, 1 < d -> no_div f d n = true ->
  forall e, d <= e -> e * e <= n -> ~ (e | n).
Proof.
  induction f as [|f IH]; intros d n Hd H e He Hs D; [discriminate|]. cbn [no_div] in H.
  destruct (n <? d * d) eqn:C; [apply Z.ltb_lt in C; nia|].
  destruct (n mod d =? 0) eqn:M; [discriminate|]. apply Z.eqb_neq in M.
  destruct (Z.eq_dec e d) as [->|Ne]; [apply M, Zdivide_mod; exact D|].
  exact (IH (d + 1) n ltac:(lia) H e ltac:(lia) Hs D).
Qed.
Lemma trial_prime f n : 1 < n -> no_div f 2 n = true -> prime n.
Proof.
  intros Hn H. destruct (prime_dec n) as [Y|Y]; [exact Y|exfalso].
  destruct (not_prime_divide n Hn Y) as [d [Hd [e Ee]]].
  destruct (Z_le_gt_dec (d * d) n) as [C|C].
  - apply (no_div_spec f 2 n ltac:(lia) H d ltac:(lia) C). exists e. exact Ee.
  - apply (no_div_spec f 2 n ltac:(lia) H e ltac:(nia) ltac:(nia)). exists d. lia.
Qed.

(** * The modulus of the BLS12-381 scalar field *)

Lemma pr_2 : prime 2.
Proof. apply (trial_prime 3); [reflexivity|vm_compute; reflexivity]. Qed.
Lemma pr_906349 : prime 906349.
Proof. apply (trial_prime 954); [reflexivity|vm_compute; reflexivity]. Qed.
Lemma pr_254760293 : prime 254760293.
Proof. apply (trial_prime 15963); [reflexivity|vm_compute; reflexivity]. Qed.
Lemma bls_q_prime : prime bls_q.
Proof.
  apply (cert_prime _ 7 228988810152649578064853576960394133503 (repeat 254760293 2 ++ repeat 906349 2 ++ repeat 2 32)); [|vm_compute; reflexivity].
  cbn [repeat app].
  repeat (apply Forall_cons; [first [exact pr_254760293 | exact pr_906349 | exact pr_2]|]). apply Forall_nil.
Qed.
