(* The equations between the two sets of BN254 constants, evaluated with the machine integers of
   the standard library through Bignums. *)
From Verif Require Import Base PosBig BnTabC.

Lemma bn_ok13 : bcheck bn_q 4 65 13 bn_c13 bn_m13 bn_C13 bn_S13 bn_M13 bn_P13 = true.
Proof. vm_cast_no_check (eq_refl true). Qed.
Lemma bn_ok14 : bcheck bn_q 4 70 14 bn_c14 bn_m14 bn_C14 bn_S14 bn_M14 bn_P14 = true.
Proof. vm_cast_no_check (eq_refl true). Qed.
Lemma bn_ok15 : bcheck bn_q 4 60 15 bn_c15 bn_m15 bn_C15 bn_S15 bn_M15 bn_P15 = true.
Proof. vm_cast_no_check (eq_refl true). Qed.
