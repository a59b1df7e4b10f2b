(* The equations between the two sets of BN254 constants, evaluated with the machine integers of
   the standard library through Bignums. *)
From Verif Require Import Base PosBig BnTabB.

Lemma bn_ok9 : bcheck bn_q 4 63 9 bn_c9 bn_m9 bn_C9 bn_S9 bn_M9 bn_P9 = true.
Proof. vm_cast_no_check (eq_refl true). Qed.
Lemma bn_ok10 : bcheck bn_q 4 60 10 bn_c10 bn_m10 bn_C10 bn_S10 bn_M10 bn_P10 = true.
Proof. vm_cast_no_check (eq_refl true). Qed.
Lemma bn_ok11 : bcheck bn_q 4 66 11 bn_c11 bn_m11 bn_C11 bn_S11 bn_M11 bn_P11 = true.
Proof. vm_cast_no_check (eq_refl true). Qed.
Lemma bn_ok12 : bcheck bn_q 4 60 12 bn_c12 bn_m12 bn_C12 bn_S12 bn_M12 bn_P12 = true.
Proof. vm_cast_no_check (eq_refl true). Qed.
