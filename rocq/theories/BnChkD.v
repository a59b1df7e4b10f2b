(* The equations between the two sets of BN254 constants, evaluated with the machine integers of
   the standard library through Bignums. *)
From Verif Require Import Base PosBig BnTabD.

Lemma bn_ok16 : bcheck bn_q 4 64 16 bn_c16 bn_m16 bn_C16 bn_S16 bn_M16 bn_P16 = true.
Proof. vm_cast_no_check (eq_refl true). Qed.
Lemma bn_ok17 : bcheck bn_q 4 68 17 bn_c17 bn_m17 bn_C17 bn_S17 bn_M17 bn_P17 = true.
Proof. vm_cast_no_check (eq_refl true). Qed.
