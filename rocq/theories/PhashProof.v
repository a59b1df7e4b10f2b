(* The hash of the public inputs. *)
From Verif Require Import Base CircModel CircProof CircMore CircToy PhashModel.
From Coq Require Import Lia Znumtheory.
Open Scope Z_scope.

(* the number of a list of bits, most significant first *)
Definition be (l : list Z) : Z := fold_left (fun a b => 2 * a + b) l 0.
Lemma be_from l : forall a, fold_left (fun a b => 2 * a + b) l a = a * 2 ^ Z.of_nat (length l) + be l.
Proof.
  unfold be. induction l as [|b l IH]; intros a; cbn [fold_left length]; [cbn; lia|]. rewrite (IH (2 * a + b)), (IH (2 * 0 + b)), pow2_S. lia.
Qed.
Lemma be_app l m : be (l ++ m) = be l * 2 ^ Z.of_nat (length m) + be m.
Proof. unfold be at 1. rewrite fold_left_app. apply be_from. Qed.
Lemma be_rev bs : be (rev bs) = bsum bs.
Proof. induction bs as [|b bs IH]; [reflexivity|]. cbn [rev bsum]. rewrite be_app, IH. cbn [length]. unfold be. cbn [fold_left]. change (2 ^ Z.of_nat 1) with 2. lia. Qed.
(* the number of the message: the address followed by words of 64 bits *)
Definition packed (addr : Z) (publics : list Z) : Z := fold_left (fun a x => a * 2 ^ 64 + x) publics addr.

Lemma word_ok r x bs : big r -> ph_word r x bs -> length bs = 64%nat /\ Forall bit01 bs /\ bsum bs = x /\ 0 <= x < gl_p.
Proof.
  intros [Hp Hr] [HN (out & HC & Ho)]. rewrite p250 in Hr. pose proof HN as (Hl & Hb & _). apply (bits_01 r bs Hp) in Hb.
  assert (H64 : 2 ^ Z.of_nat 64 <= r) by (change (2 ^ Z.of_nat 64) with 18446744073709551616; lia).
  destruct (bits_determined r 64 x bs bs Hp H64 HN HN) as (_ & E). split; [exact Hl|]. split; [exact Hb|]. split; [exact E|].
  pose proof (comp_sound r 18446744069414584320 bs out Hp ltac:(change (2 ^ 34) with 17179869184; lia) ltac:(change (2 ^ 64) with 18446744073709551616; lia) Hl Hb HC) as HS.
  pose proof (bsum_range bs Hb) as B. rewrite E in *. unfold gl_p. destruct (18446744069414584320 <? x) eqn:EC; [|apply Z.ltb_ge in EC; lia].
  unfold eqr in *. rewrite Ho in HS. rewrite !Z.mod_small in HS by lia. discriminate.
Qed.
Lemma words_ok r : big r -> forall publics bss, Forall2 (ph_word r) publics bss ->
  length (concat (map (@rev Z) bss)) = (64 * length publics)%nat /\ Forall bit01 (concat (map (@rev Z) bss)) /\
  Forall (fun x => 0 <= x < gl_p) publics /\
  forall a, a * 2 ^ Z.of_nat (64 * length publics) + be (concat (map (@rev Z) bss)) = packed a publics.
Proof.
  intros Hb. induction 1 as [|x bs publics bss HW _ (IL & IB & IP & IE)]; cbn [map concat length packed fold_left].
  - split; [reflexivity|]. split; [constructor|]. split; [constructor|]. intros a. unfold packed, be. cbn. lia.
  - destruct (word_ok r x bs Hb HW) as (Hl & H01 & E & Bx). split; [rewrite app_length, rev_length, Hl, IL; lia|].
    split; [apply Forall_app; split; [apply Forall_rev; exact H01|exact IB]|]. split; [constructor; [exact Bx|exact IP]|].
    intros a. unfold packed. cbn [fold_left]. fold (packed (a * 2 ^ 64 + x) publics). rewrite <- IE, be_app, IL, be_rev, E.
    replace (64 * S (length publics))%nat with (64 + 64 * length publics)%nat by lia. rewrite Nat2Z.inj_add, Z.pow_add_r by lia.
    change (Z.of_nat 64) with 64. ring.
Qed.

Lemma ph_sound r sha addr publics hash : big r -> ph_holds r sha addr publics hash ->
  0 <= addr < 2 ^ 160 /\ Forall (fun x => 0 <= x < gl_p) publics /\
  exists msg, length msg = (160 + 64 * length publics)%nat /\ Forall bit01 msg /\ be msg = packed addr publics /\ hash = be (sha msg) mod r.
Proof.
  intros Hb (ab & bss & HA & HF & Hh & HE). destruct (words_ok r Hb _ _ HF) as (L & B & P & E). pose proof Hb as [Hp Hr]. rewrite p250 in Hr.
  assert (H160 : 2 ^ Z.of_nat 160 <= r).
  { change (2 ^ Z.of_nat 160) with 1461501637330902918203684832716283019655932542976. lia. }
  destruct (bits_determined r 160 addr ab ab Hp H160 HA HA) as (_ & Ea). destruct HA as (La & Ba & _). apply (bits_01 r ab Hp) in Ba.
  pose proof (bsum_range ab Ba) as Ra. rewrite La, Ea in Ra. split; [exact Ra|]. split; [exact P|].
  exists (ph_message ab bss). unfold ph_message. split; [rewrite app_length, rev_length, La, L; reflexivity|].
  split; [apply Forall_app; split; [apply Forall_rev; exact Ba|exact B]|]. split; [rewrite be_app, be_rev, Ea, L; apply E|].
  unfold eqr in HE. rewrite <- be_rev, rev_involutive in HE. fold (ph_message ab bss). rewrite <- HE. symmetry. apply Z.mod_small. exact Hh.
Qed.
(* bits of equal length with equal number are equal *)
Lemma bsum_inj : forall l m, length l = length m -> Forall bit01 l -> Forall bit01 m -> bsum l = bsum m -> l = m.
Proof.
  induction l as [|a l IH]; intros [|b m] HL HA HB E; try discriminate; [reflexivity|]. inversion HA; subst. inversion HB; subst. cbn [bsum] in E.
  unfold bit01 in *. assert (a = b) by lia. subst b. f_equal. apply IH; auto. lia.
Qed.
Lemma be_inj l m : length l = length m -> Forall bit01 l -> Forall bit01 m -> be l = be m -> l = m.
Proof.
  intros HL HA HB E. rewrite <- (rev_involutive l), <- (rev_involutive m) in E. rewrite !be_rev in E.
  apply bsum_inj in E; [|rewrite !rev_length; exact HL|apply Forall_rev; exact HA|apply Forall_rev; exact HB].
  rewrite <- (rev_involutive l), E. apply rev_involutive.
Qed.
Lemma packed_inj : forall xs ys a b, length xs = length ys -> Forall (fun x => 0 <= x < gl_p) xs -> Forall (fun x => 0 <= x < gl_p) ys ->
  packed a xs = packed b ys -> a = b /\ xs = ys.
Proof.
  induction xs as [|x xs IH]; intros [|y ys] a b HL HX HY E; try discriminate; [split; [exact E|reflexivity]|].
  inversion HX; subst. inversion HY; subst. unfold packed in E. cbn [fold_left] in E.
  destruct (IH ys _ _ ltac:(cbn in HL; lia) ltac:(assumption) ltac:(assumption) E) as (E1 & ->). unfold gl_p in *.
  change (2 ^ 64) with 18446744073709551616 in E1. assert (a = b) by lia. split; [assumption|f_equal; lia].
Qed.
Lemma ph_unique r sha addr publics h h' : big r -> ph_holds r sha addr publics h -> ph_holds r sha addr publics h' -> h = h'.
Proof.
  intros Hb H H'. destruct (ph_sound _ _ _ _ _ Hb H) as (_ & _ & m & L & B & E & ->). destruct (ph_sound _ _ _ _ _ Hb H') as (_ & _ & m' & L' & B' & E' & ->).
  rewrite (be_inj m m'); [reflexivity|congruence|exact B|exact B'|congruence].
Qed.
Lemma ph_binds r sha addr publics addr' publics' h : big r -> length publics = length publics' ->
  ph_holds r sha addr publics h -> ph_holds r sha addr' publics' h ->
  (addr = addr' /\ publics = publics') \/
  exists m m', m <> m' /\ Forall bit01 m /\ Forall bit01 m' /\ length m = length m' /\ be (sha m) mod r = be (sha m') mod r.
Proof.
  intros Hb HL H H'. destruct (ph_sound _ _ _ _ _ Hb H) as (_ & P & m & L & B & E & Eh). destruct (ph_sound _ _ _ _ _ Hb H') as (_ & P' & m' & L' & B' & E' & Eh').
  destruct (list_eq_dec Z.eq_dec m m') as [->|N].
  - left. apply (packed_inj _ _ _ _ HL P P'). congruence.
  - right. exists m, m'. repeat split; try assumption; congruence.
Qed.
Lemma ph_complete r sha addr publics : big r -> 0 <= addr < 2 ^ 160 -> Forall (fun x => 0 <= x < gl_p) publics ->
  exists h, ph_holds r sha addr publics h.
Proof.
  intros [Hp Hr] HA HP. rewrite p250 in Hr. change (2 ^ 160) with (2 ^ Z.of_nat 160) in HA.
  assert (H160 : 2 ^ Z.of_nat 160 < r).
  { change (2 ^ Z.of_nat 160) with 1461501637330902918203684832716283019655932542976. lia. }
  assert (HW : exists bss, Forall2 (ph_word r) publics bss).
  { induction HP as [|x publics Hx _ (bss & IH)]; [exists []; constructor|]. exists (bits_of 64 x :: bss). constructor; [|exact IH].
    assert (Bx : 0 <= x < 2 ^ Z.of_nat 64) by (change (2 ^ Z.of_nat 64) with 18446744073709551616; unfold gl_p in Hx; lia).
    split; [apply num2bits_complete; [lia|unfold felt; unfold gl_p in Hx; lia|exact Bx]|].
    destruct (comp_complete r 18446744069414584320 (bits_of 64 x)) as (out & HC);
      [change (2 ^ 34) with 17179869184; lia|change (2 ^ 64) with 18446744073709551616; lia|apply bits_of_len|apply bits_of_01|].
    exists out. split; [exact HC|].
    pose proof (comp_sound r 18446744069414584320 (bits_of 64 x) out Hp ltac:(change (2 ^ 34) with 17179869184; lia)
      ltac:(change (2 ^ 64) with 18446744073709551616; lia) (bits_of_len 64 x) (bits_of_01 64 x) HC) as HS.
    rewrite (bits_of_sum 64 x Bx) in HS. destruct (18446744069414584320 <? x) eqn:EC; [apply Z.ltb_lt in EC; unfold gl_p in Hx; lia|exact HS]. }
  destruct HW as (bss & HF). exists (bsum (rev (sha (ph_message (bits_of 160 addr) bss))) mod r). exists (bits_of 160 addr), bss.
  split; [apply num2bits_complete; [lia|unfold felt; lia|exact HA]|]. split; [exact HF|].
  split; [unfold felt; apply Z.mod_pos_bound; lia|]. unfold eqr. apply Z.mod_mod. lia.
Qed.
