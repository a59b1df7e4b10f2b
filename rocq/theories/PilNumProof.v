(* Proofs about the reading of PIL numbers *)
From Verif Require Import Base GlModel CodegenModel InterpModel PilNumModel.
Open Scope Z_scope.
Open Scope res_scope.

(* the number written by a list of digits, the most significant first *)
Fixpoint positional (radix : Z) (ds : list Z) : Z :=
  match ds with [] => 0 | d :: r => d * radix ^ Z.of_nat (length r) + positional radix r end.
Definition digits (radix : Z) (l ds : list Z) : Prop := Forall2 (fun c d => digit radix c = Some d) l ds.
(* an optional sign and at least one digit *)
Inductive numeral (radix : Z) : list Z -> Z -> Prop :=
| num_plain l ds : l <> [] -> digits radix l ds -> numeral radix l (positional radix ds)
| num_plus l ds : l <> [] -> digits radix l ds -> numeral radix (43 :: l) (positional radix ds)
| num_minus l ds : l <> [] -> digits radix l ds -> numeral radix (45 :: l) (- positional radix ds).
Inductive literal : list Z -> Z -> Prop :=
| lit_hex l k : numeral 16 l k -> literal (48 :: 120 :: l) k
| lit_dec l k : numeral 10 l k -> literal l k.

Lemma digit_range radix c d : digit radix c = Some d -> 0 <= d < radix.
Proof.
  unfold digit. intro H. destruct (_ <? radix) eqn:E in H; [|discriminate H]. injection H as <-. apply Z.ltb_lt in E. split; [|exact E].
  destruct ((48 <=? c) && (c <=? 57)) eqn:E1; [lia|]. destruct ((97 <=? c) && (c <=? 122)) eqn:E2; [lia|].
  destruct ((65 <=? c) && (c <=? 90)) eqn:E3; lia.
Qed.
Lemma positional_nonneg radix ds : 0 < radix -> Forall (fun d => 0 <= d) ds -> 0 <= positional radix ds.
Proof.
  intros Hr. induction 1 as [|d ds Hd _ IH]; cbn [positional]; [lia|].
  pose proof (Z.pow_nonneg radix (Z.of_nat (length ds)) ltac:(lia)). nia.
Qed.
Lemma digits_nonneg radix l ds : digits radix l ds -> Forall (fun d => 0 <= d) ds.
Proof. induction 1; constructor; [eapply digit_range; eassumption | assumption]. Qed.

Lemma F2_len {A B} (R : A -> B -> Prop) l l' : Forall2 R l l' -> length l = length l'.
Proof. induction 1; cbn; congruence. Qed.
Lemma int_digits_sound radix sg l : forall acc k, int_digits radix sg acc l = Ok k ->
  exists ds, digits radix l ds /\ k = acc * radix ^ Z.of_nat (length l) + sg * positional radix ds /\ (l <> [] -> i128_ok k = true).
Proof.
  induction l as [|c l IH]; intros acc k H; cbn [int_digits] in H.
  - injection H as <-. exists []. split; [constructor|]. split; [cbn; lia|congruence].
  - destruct (digit radix c) as [d|] eqn:Ed; [|discriminate H]. cbn [unwrap bind] in H.
    destruct (i128_ok (acc * radix)); [|discriminate H]. destruct (i128_ok (acc * radix + sg * d)) eqn:E2; [|discriminate H].
    destruct (IH _ _ H) as [ds [D [K R]]]. exists (d :: ds). split; [constructor; assumption|].
    split.
    + cbn [positional length]. rewrite <- (F2_len _ _ _ D), Nat2Z.inj_succ, Z.pow_succ_r by lia. lia.
    + intros _. destruct l as [|c' l]; [|apply R; congruence].
      cbn [int_digits] in H. injection H as <-. exact E2.
Qed.

Lemma i128_between a b : i128_ok b = true -> (0 <= a <= b \/ b <= a <= 0) -> i128_ok a = true.
Proof. unfold i128_ok. intros H Hab. apply andb_true_iff in H. destruct H as [H1 H2]. apply Z.leb_le in H1. apply Z.ltb_lt in H2.
  apply andb_true_iff. split; [apply Z.leb_le | apply Z.ltb_lt]; lia. Qed.

Lemma int_digits_complete radix sg l ds : 0 < radix -> (sg = 1 \/ sg = -1) -> digits radix l ds -> forall acc,
  0 <= sg * acc -> i128_ok (acc * radix ^ Z.of_nat (length l) + sg * positional radix ds) = true ->
  int_digits radix sg acc l = Ok (acc * radix ^ Z.of_nat (length l) + sg * positional radix ds).
Proof.
  intros Hr Hs D. induction D as [|c d l ds Hd D IH]; intros acc Ha Hk.
  - cbn. f_equal. lia.
  - cbn [int_digits]. rewrite Hd. cbn [unwrap bind].
    pose proof (digit_range _ _ _ Hd) as Rd. pose proof (positional_nonneg radix ds Hr (digits_nonneg _ _ _ D)) as Hp.
    assert (E : acc * radix ^ Z.of_nat (length (c :: l)) + sg * positional radix (d :: ds) =
      (acc * radix + sg * d) * radix ^ Z.of_nat (length l) + sg * positional radix ds).
    { cbn [positional length]. rewrite <- (F2_len _ _ _ D), Nat2Z.inj_succ, Z.pow_succ_r by lia. lia. }
    rewrite E in *.
    assert (Hw : 1 <= radix ^ Z.of_nat (length l)).
    { pose proof (Z.pow_pos_nonneg radix (Z.of_nat (length l)) Hr ltac:(lia)). lia. }
    set (w := radix ^ Z.of_nat (length l)) in *.
    assert (B1 : i128_ok (acc * radix) = true) by (apply (i128_between _ _ Hk); destruct Hs; subst sg; nia).
    assert (B2 : i128_ok (acc * radix + sg * d) = true) by (apply (i128_between _ _ Hk); destruct Hs; subst sg; nia).
    rewrite B1, B2. apply IH; [destruct Hs; subst sg; nia | exact Hk].
Qed.

Lemma digit_sign radix c d : radix <= 36 -> digit radix c = Some d -> c <> 45 /\ c <> 43.
Proof.
  intros Hr H. unfold digit in H. destruct (Z.ltb_spec (if (48 <=? c) && (c <=? 57) then c - 48 else if (97 <=? c) && (c <=? 122) then c - 87
     else if (65 <=? c) && (c <=? 90) then c - 55 else 99) radix) as [L|L]; [|discriminate H].
  split; intros ->; cbn in L; lia.
Qed.

Theorem int_parse_spec radix l k : 0 < radix <= 36 -> (int_parse radix l = Ok k <-> numeral radix l k /\ i128_ok k = true).
Proof.
  intro Hr. split.
  - intro H. unfold int_parse in H. destruct l as [|c l]; [discriminate H|].
    destruct ((c =? 45) || (c =? 43)) eqn:Es.
    + destruct l as [|c' l]; [discriminate H|]. apply orb_true_iff in Es.
      destruct (c =? 45) eqn:E45.
      * apply Z.eqb_eq in E45. subst c. destruct (int_digits_sound _ _ _ _ _ H) as [ds [D [K R]]].
        split; [|apply R; congruence]. replace k with (- positional radix ds) by lia. constructor; [congruence | exact D].
      * destruct Es as [Es|Es]; [discriminate Es|]. apply Z.eqb_eq in Es. subst c. destruct (int_digits_sound _ _ _ _ _ H) as [ds [D [K R]]].
        split; [|apply R; congruence]. replace k with (positional radix ds) by lia. constructor; [congruence | exact D].
    + destruct (int_digits_sound _ _ _ _ _ H) as [ds [D [K R]]].
      split; [|apply R; congruence]. replace k with (positional radix ds) by lia. constructor; [congruence | exact D].
  - intros [H R]. inversion H as [l' ds Hn D|l' ds Hn D|l' ds Hn D]; subst.
    + destruct l as [|c l]; [congruence|]. inversion D; subst. unfold int_parse.
      destruct (digit_sign radix c y (proj2 Hr) H2) as [N1 N2]. apply Z.eqb_neq in N1, N2. rewrite N1, N2. cbn [orb].
      replace (positional radix (y :: l')) with (0 * radix ^ Z.of_nat (length (c :: l)) + 1 * positional radix (y :: l')) in R |- * by lia.
      apply int_digits_complete; try lia; assumption.
    + unfold int_parse. cbn [Z.eqb orb]. destruct l' as [|c l]; [congruence|].
      change ((43 =? 45) || (43 =? 43))%bool with true. cbn iota. change (43 =? 45) with false. cbn iota.
      replace (positional radix ds) with (0 * radix ^ Z.of_nat (length (c :: l)) + 1 * positional radix ds) in R |- * by lia.
      apply int_digits_complete; try lia; assumption.
    + unfold int_parse. destruct l' as [|c l]; [congruence|].
      change ((45 =? 45) || (45 =? 43))%bool with true. cbn iota. change (45 =? 45) with true. cbn iota.
      replace (- positional radix ds) with (0 * radix ^ Z.of_nat (length (c :: l)) + -1 * positional radix ds) in R |- * by lia.
      apply int_digits_complete; try lia; assumption.
Qed.

Lemma GLP_val : GLP = 18446744069414584321. Proof. reflexivity. Qed.
Lemma pil_number_ok k : - GLP <= k -> pil_number k = k mod GLP.
Proof.
  intro H. unfold pil_number. pose proof GLP_val as G.
  assert (B : forall a, 0 <= a -> Z.rem a GLP mod 2 ^ 64 = a mod GLP).
  { intros a Ha. rewrite Z.rem_mod_nonneg by lia. apply Z.mod_small. pose proof (Z.mod_pos_bound a GLP ltac:(lia)).
    change (2 ^ 64) with 18446744073709551616. lia. }
  destruct (k <? 0) eqn:E; [|apply Z.ltb_ge in E; apply B; lia].
  rewrite B by lia. rewrite <- (Z.mul_1_l GLP) at 1. apply Z_mod_plus_full.
Qed.

(* "0x" is never a decimal numeral, so a literal has one reading *)
Lemma dec_not_hex l k : ~ numeral 10 (48 :: 120 :: l) k.
Proof.
  intro H. inversion H as [l' ds _ D| |]; subst. inversion D as [|c1 d1 l1 ds1 _ D1]; subst.
  inversion D1 as [|c2 d2 l2 ds2 E _]; subst. discriminate E.
Qed.

Theorem parse_spec s u : parse_pil_number s = Ok u <-> exists k, literal s k /\ i128_ok k = true /\ u = pil_number k.
Proof.
  assert (Hd : forall a b, a = 48 /\ b = 120 \/ ((a =? 48) && (b =? 120)) = false).
  { intros a b. destruct (Z.eqb_spec a 48); destruct (Z.eqb_spec b 120); cbn [andb]; auto. }
  assert (Hi : forall radix l, 0 < radix <= 36 -> ((do k <- int_parse radix l; Ok (pil_number k)) = Ok u <->
     exists k, numeral radix l k /\ i128_ok k = true /\ u = pil_number k)).
  { intros radix l Hr. split.
    - intro H. destruct (int_parse radix l) as [k| | |] eqn:E; try discriminate H. cbn [bind] in H.
      apply (int_parse_spec radix l k Hr) in E. exists k. destruct E. repeat split; try assumption. congruence.
    - intros [k [H1 [H2 ->]]]. assert (E : int_parse radix l = Ok k) by (apply int_parse_spec; auto). rewrite E. reflexivity. }
  unfold parse_pil_number.
  assert (Hdec : (match s with a :: b :: r => if (a =? 48) && (b =? 120) then int_parse 16 r else int_parse 10 s | _ => int_parse 10 s end = int_parse 10 s /\
      (forall k, literal s k <-> numeral 10 s k)) \/ exists r, s = 48 :: 120 :: r).
  { destruct s as [|a [|b r]].
    - left. split; [reflexivity|]. intro k. split; [intro H; inversion H; subst; assumption | apply lit_dec].
    - left. split; [reflexivity|]. intro k. split; [intro H; inversion H; subst; assumption | apply lit_dec].
    - destruct (Hd a b) as [[-> ->]|E]; [right; eexists; reflexivity|]. left. rewrite E. split; [reflexivity|].
      intro k. split; [intro H; inversion H; subst; [discriminate E | assumption] | apply lit_dec]. }
  destruct Hdec as [[-> Hl]|[r ->]].
  - rewrite (Hi 10 s) by lia. split; intros [k [H1 H2]]; exists k; split; try assumption; apply Hl; assumption.
  - change ((48 =? 48) && (120 =? 120))%bool with true. cbn iota. rewrite (Hi 16 r) by lia.
    split; intros [k [H1 H2]]; exists k; split; try assumption.
    + now constructor.
    + inversion H1; subst; [assumption|]. now apply dec_not_hex in H.
Qed.

Theorem parse_residue s u : parse_pil_number s = Ok u -> exists k, literal s k /\ (- GLP <= k -> u = k mod GLP).
Proof. intro H. apply parse_spec in H. destruct H as [k [H1 [H2 ->]]]. exists k. split; [exact H1 | apply pil_number_ok]. Qed.
Lemma digits_fun radix l ds : digits radix l ds -> forall ds', digits radix l ds' -> ds = ds'.
Proof.
  induction 1 as [|c d l ds E _ IH]; intros ds' H'; inversion H' as [|c' d' l' ds1 E' D']; subst; [reflexivity|].
  rewrite E in E'. injection E' as ->. f_equal. now apply IH.
Qed.
Lemma no_sign radix c l ds : radix <= 36 -> (c = 43 \/ c = 45) -> ~ digits radix (c :: l) ds.
Proof. intros Hr Hc D. inversion D as [|c' d l' ds' E _]; subst. destruct (digit_sign _ _ _ Hr E). destruct Hc; congruence. Qed.
Lemma numeral_fun radix l k k' : radix <= 36 -> numeral radix l k -> numeral radix l k' -> k = k'.
Proof.
  intros Hr H H'. inversion H as [l1 ds Hn D|l1 ds Hn D|l1 ds Hn D]; subst; inversion H' as [l2 ds2 Hn' D'|l2 ds2 Hn' D'|l2 ds2 Hn' D']; subst;
    try (rewrite (digits_fun _ _ _ D _ D'); reflexivity);
    exfalso; ((eapply no_sign; [exact Hr | | exact D]; auto; fail) || (eapply no_sign; [exact Hr | | exact D']; auto; fail)).
Qed.
Lemma literal_fun s k k' : literal s k -> literal s k' -> k = k'.
Proof.
  intros H H'. inversion H as [l a N|l a N]; subst; inversion H' as [l2 b N'|l2 b N']; subst.
  - eapply (numeral_fun 16); try eassumption; lia.
  - now apply dec_not_hex in N'.
  - now apply dec_not_hex in N.
  - eapply (numeral_fun 10); try eassumption; lia.
Qed.

(* below -p the result is wrong *)
Definition bytes_wrong : list Z := [45;51;54;56;57;51;52;56;56;49;51;56;56;50;57;49;54;56;54;52;49]. (* -36893488138829168641 = -2p+1 *)
Theorem parse_wrong : exists s k, literal s k /\ i128_ok k = true /\ parse_pil_number s = Ok (2 ^ 32) /\ k mod GLP = 1.
Proof.
  exists bytes_wrong, (- 2 * GLP + 1).
  assert (E : int_parse 10 bytes_wrong = Ok (-2 * GLP + 1)) by (vm_compute; reflexivity).
  apply int_parse_spec in E; [|lia]. split; [apply lit_dec, E|]. split; [apply E|]. split; vm_compute; reflexivity.
Qed.
