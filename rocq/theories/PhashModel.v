(* Model of the end of the template Main that starky/src/stark_verifier_circom_onchain.rs writes: the hash of the public inputs, the
   only output of the final circuit. Signals are numbers modulo [r] as in CircModel. Sha256 is circomlib's, which is not in the
   repository: [sha] gives its 256 output bits, most significant first, for the input bits. *)
From Verif Require Import Base CircModel.
Open Scope Z_scope.

Section Main.
Variable r : Z.
Variable sha : list Z -> list Z.
(* lines 1797-1805: one public input with its bits, least significant first; the comparison with p-1 *)
Definition ph_word (x : Z) (bs : list Z) : Prop :=
  Num2Bits r 64 x bs /\ exists out, CompConstant64 r 18446744069414584320 bs out /\ eqr r out 0.
(* lines 1791-1802: bit j of the address goes to place 159-j, bit j of public input i to place 160+64i+63-j *)
Definition ph_message (ab : list Z) (bss : list (list Z)) : list Z := rev ab ++ concat (map (@rev Z) bss).
(* lines 1786-1814; Bits2Num gets the digest's bits in reverse *)
Definition ph_holds (addr : Z) (publics : list Z) (hash : Z) : Prop :=
  exists ab bss, Num2Bits r 160 addr ab /\ Forall2 ph_word publics bss /\
    felt r hash /\ eqr r hash (bsum (rev (sha (ph_message ab bss)))).
End Main.
