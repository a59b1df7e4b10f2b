(* The equations between the two sets of BN254 constants, evaluated with the machine integers of
   the standard library through Bignums. *)
From Verif Require Import Base PosBig BnTabA.

Lemma bn_ok2 : bcheck bn_q 4 56 2 bn_c2 bn_m2 bn_C2 bn_S2 bn_M2 bn_P2 = true.
Proof. vm_cast_no_check (eq_refl true). Qed.
Lemma bn_ok3 : bcheck bn_q 4 57 3 bn_c3 bn_m3 bn_C3 bn_S3 bn_M3 bn_P3 = true.
Proof. vm_cast_no_check (eq_refl true). Qed.
Lemma bn_ok4 : bcheck bn_q 4 56 4 bn_c4 bn_m4 bn_C4 bn_S4 bn_M4 bn_P4 = true.
Proof. vm_cast_no_check (eq_refl true). Qed.
Lemma bn_ok5 : bcheck bn_q 4 60 5 bn_c5 bn_m5 bn_C5 bn_S5 bn_M5 bn_P5 = true.
Proof. vm_cast_no_check (eq_refl true). Qed.
Lemma bn_ok6 : bcheck bn_q 4 60 6 bn_c6 bn_m6 bn_C6 bn_S6 bn_M6 bn_P6 = true.
Proof. vm_cast_no_check (eq_refl true). Qed.
Lemma bn_ok7 : bcheck bn_q 4 63 7 bn_c7 bn_m7 bn_C7 bn_S7 bn_M7 bn_P7 = true.
Proof. vm_cast_no_check (eq_refl true). Qed.
Lemma bn_ok8 : bcheck bn_q 4 64 8 bn_c8 bn_m8 bn_C8 bn_S8 bn_M8 bn_P8 = true.
Proof. vm_cast_no_check (eq_refl true). Qed.
