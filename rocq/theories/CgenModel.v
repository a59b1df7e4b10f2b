(* The transcripts that the generators of verifier circuits write: starky/src/stark_verifier_circom.rs
   (recursion over the Goldilocks field) and stark_verifier_circom_onchain.rs (over a pairing-friendly
   curve's scalar field).  The generators build texts; a text is here the term it spells.  A statement that
   spans several lines of text is one constructor. *)
From Verif Require Import Base GlModel FrField HashModel CircModel.
From Coq Require Import String List.
Import ListNotations.
Open Scope nat_scope.
Open Scope res_scope.

(* the texts given by the caller, and format!("{a}[{i}]") *)
Inductive name : Type := NBase (s : string) | NIdx (a : name) (i : nat).

(* the texts of signals: "0", a caller's text, "tcHahs_{k}[{i}]" or "tcHahs_{k}.out[{i}]",
   "bn1togl3_{k}.out[{i}]" and "tcN2b_{k}.out[{i}]"; the caller's texts are none of the others *)
Inductive sgn : Type :=
| SZero | SName (a : name) | SHash (k i : nat) | SSplit (k i : nat) | SBits (k i : nat).

(* the statements: a call of Poseidon with its inputs and initial state, a BN1toGL3 component, a bit
   decomposition component, "{n} <== {s};" *)
Inductive gstm : Type :=
| GHash (k : nat) (ins st : list sgn)
| GSplit (k : nat) (s : sgn)
| GBits (k : nat) (s : sgn)
| GAssign (n : name) (s : sgn).

(* stark_verifier_circom.rs:135-147 and stark_verifier_circom_onchain.rs:164-176: the bits of one query from
   number [j] on; [w] is 63 or 253 *)
Fixpoint bit_stms (w : nat) (ks : list nat) (v : name) (nbits j cf cb : nat) : res (list gstm * nat * nat) :=
  match nbits with
  | O => Ok ([], cf, cb)
  | S m =>
    do k <- vget ks cf;
    let cb' := S cb in
    do x <- (if cb' =? w then bit_stms w ks v m (S j) (S cf) 0 else bit_stms w ks v m (S j) cf cb');
    let '(l, cf', cb'') := x in
    Ok (GAssign (NIdx v j) (SBits k cb) :: l, cf', cb'')
  end.
Fixpoint row_stms (w : nat) (ks : list nat) (v : name) (nbits n i cf cb : nat) : res (list gstm) :=
  match n with
  | O => Ok []
  | S m =>
    do x <- bit_stms w ks (NIdx v i) nbits 0 cf cb;
    let '(l, cf, cb) := x in
    do r <- row_stms w ks v nbits m (S i) cf cb;
    Ok (l ++ r)
  end.

(* the texts that put writes: stark_verifier_circom.rs:95-103, stark_verifier_circom_onchain.rs:126-134; a
   negative l is None *)
Definition put_names (a : name) (l : option nat) : list name :=
  match l with Some l => map (NIdx a) (seq 0 l) | None => [a] end.

(** * stark_verifier_circom.rs *)

(* stark_verifier_circom.rs:40-47 *)
Record ggl : Type := mkGgl { gg_state : list sgn; gg_pending : list sgn; gg_out : list sgn; gg_h : nat;
  gg_n2b : nat; gg_code : list gstm }.

(* stark_verifier_circom.rs:50-59 *)
Definition gg_new : ggl := mkGgl [SZero; SZero; SZero; SZero] [] [] 0 0 [].

(* stark_verifier_circom.rs:72-90 and 109-124; in the second place the eight texts are complete *)
Definition gg_flush (g : ggl) : ggl :=
  let k := gg_h g in
  mkGgl (map (SHash k) (seq 0 4)) [] (map (SHash k) (seq 0 12)) (S k) (gg_n2b g)
    (gg_code g ++ [GHash k (gg_pending g ++ repeat SZero (8 - length (gg_pending g))) (gg_state g)]).

(* stark_verifier_circom.rs:71-94 *)
Definition gg_get1 (g : ggl) : res (sgn * ggl) :=
  let g := match gg_out g with [] => gg_flush g | _ => g end in
  match gg_out g with
  | v :: r => Ok (v, mkGgl (gg_state g) (gg_pending g) r (gg_h g) (gg_n2b g) (gg_code g))
  | [] => Panic
  end.

(* stark_verifier_circom.rs:106-126 *)
Definition gg_add (g : ggl) (a : name) : ggl :=
  let g := mkGgl (gg_state g) (gg_pending g ++ [SName a]) [] (gg_h g) (gg_n2b g) (gg_code g) in
  if length (gg_pending g) =? 8 then gg_flush g else g.

(* stark_verifier_circom.rs:96-104 *)
Definition gg_put (g : ggl) (a : name) (l : option nat) : ggl := fold_left gg_add (put_names a l) g.

Definition gg_emit (g : ggl) (l : list gstm) : ggl :=
  mkGgl (gg_state g) (gg_pending g) (gg_out g) (gg_h g) (gg_n2b g) (gg_code g ++ l).

(* stark_verifier_circom.rs:61-68 *)
Definition gg_field (g : ggl) (v : name) : res ggl :=
  do sg <- gg_get1 g; let (s, g) := sg in let g := gg_emit g [GAssign (NIdx v 0) s] in
  do sg <- gg_get1 g; let (s, g) := sg in let g := gg_emit g [GAssign (NIdx v 1) s] in
  do sg <- gg_get1 g; let (s, g) := sg in Ok (gg_emit g [GAssign (NIdx v 2) s]).

(* stark_verifier_circom.rs:132-138 *)
Fixpoint gg_n2bs (n : nat) (g : ggl) : res (list nat * ggl) :=
  match n with
  | O => Ok ([], g)
  | S m =>
    do sg <- gg_get1 g; let (s, g) := sg in
    let k := gg_n2b g in
    do kg <- gg_n2bs m (mkGgl (gg_state g) (gg_pending g) (gg_out g) (gg_h g) (S k) (gg_code g ++ [GBits k s]));
    Ok (k :: fst kg, snd kg)
  end.

(* stark_verifier_circom.rs:128-152; n * nBits = 0 underflows *)
Definition gg_perm (g : ggl) (v : name) (n nbits : nat) : res ggl :=
  if n * nbits =? 0 then Panic
  else
    do kg <- gg_n2bs ((n * nbits - 1) / 63 + 1) g;
    do l <- row_stms 63 (fst kg) v nbits n 0 0 0;
    Ok (gg_emit (snd kg) l).

(** * stark_verifier_circom_onchain.rs *)

(* stark_verifier_circom_onchain.rs:34-45, without the struct *)
Record gq : Type := mkGq { gq_state : sgn; gq_pending : list sgn; gq_out : list sgn; gq_out3 : list sgn;
  gq_h : nat; gq_n2b : nat; gq_split : nat; gq_code : list gstm }.

(* stark_verifier_circom_onchain.rs:48-60 *)
Definition gq_new : gq := mkGq SZero [] [] [] 0 0 0 [].

(* stark_verifier_circom_onchain.rs:99-124 *)
Definition gq_update (g : gq) : gq :=
  let k := gq_h g in
  mkGq (SHash k 0) [] (map (SHash k) (seq 0 17)) [] (S k) (gq_n2b g) (gq_split g)
    (gq_code g ++ [GHash k (gq_pending g ++ repeat SZero (16 - length (gq_pending g))) [gq_state g]]).

(* stark_verifier_circom_onchain.rs:136-143 *)
Definition gq_add (g : gq) (a : name) : gq :=
  let g := mkGq (gq_state g) (gq_pending g ++ [SName a]) [] [] (gq_h g) (gq_n2b g) (gq_split g) (gq_code g) in
  if length (gq_pending g) =? 16 then gq_update g else g.

(* stark_verifier_circom_onchain.rs:126-134 *)
Definition gq_put (g : gq) (a : name) (l : option nat) : gq := fold_left gq_add (put_names a l) g.

(* stark_verifier_circom_onchain.rs:71-91; at most two recursive calls *)
Definition gq_pop3 (g : gq) : option (sgn * gq) :=
  match gq_out3 g with
  | v :: r => Some (v, mkGq (gq_state g) (gq_pending g) (gq_out g) r (gq_h g) (gq_n2b g) (gq_split g) (gq_code g))
  | [] => None
  end.
Definition gq_refill (g : gq) : gq :=
  match gq_out g with
  | v :: r => let k := gq_split g in
    mkGq (gq_state g) (gq_pending g) r (map (SSplit k) (seq 0 3)) (gq_h g) (gq_n2b g) (S k) (gq_code g ++ [GSplit k v])
  | [] => g
  end.
Definition gq_get1 (g : gq) : res (sgn * gq) :=
  match gq_pop3 g with
  | Some x => Ok x
  | None =>
    match gq_pop3 (gq_refill g) with
    | Some x => Ok x
    | None => match gq_pop3 (gq_refill (gq_update g)) with Some x => Ok x | None => Hang end
    end
  end.

(* stark_verifier_circom_onchain.rs:93-97 *)
Definition gq_get253 (g : gq) : res (sgn * gq) :=
  let g := match gq_out g with [] => gq_update g | _ => g end in
  match gq_out g with
  | v :: r => Ok (v, mkGq (gq_state g) (gq_pending g) r (gq_out3 g) (gq_h g) (gq_n2b g) (gq_split g) (gq_code g))
  | [] => Hang
  end.

Definition gq_emit (g : gq) (l : list gstm) : gq :=
  mkGq (gq_state g) (gq_pending g) (gq_out g) (gq_out3 g) (gq_h g) (gq_n2b g) (gq_split g) (gq_code g ++ l).

(* stark_verifier_circom_onchain.rs:62-69 *)
Definition gq_field (g : gq) (v : name) : res gq :=
  do sg <- gq_get1 g; let (s, g) := sg in let g := gq_emit g [GAssign (NIdx v 0) s] in
  do sg <- gq_get1 g; let (s, g) := sg in let g := gq_emit g [GAssign (NIdx v 1) s] in
  do sg <- gq_get1 g; let (s, g) := sg in Ok (gq_emit g [GAssign (NIdx v 2) s]).

(* stark_verifier_circom_onchain.rs:155-161 *)
Fixpoint gq_n2bs (n : nat) (g : gq) : res (list nat * gq) :=
  match n with
  | O => Ok ([], g)
  | S m =>
    do sg <- gq_get253 g; let (s, g) := sg in
    let k := gq_n2b g in
    do kg <- gq_n2bs m (mkGq (gq_state g) (gq_pending g) (gq_out g) (gq_out3 g) (gq_h g) (S k) (gq_split g)
                          (gq_code g ++ [GBits k s]));
    Ok (k :: fst kg, snd kg)
  end.

(* stark_verifier_circom_onchain.rs:145-177; the component's name is chosen by the hash type, see [stm_q] *)
Definition gq_perm (g : gq) (v : name) (n nbits : nat) : res gq :=
  if n * nbits =? 0 then Panic
  else
    do kg <- gq_n2bs ((n * nbits - 1) / 253 + 1) g;
    do l <- row_stms 253 (fst kg) v nbits n 0 0 0;
    Ok (gq_emit (snd kg) l).

(** * Sequences of calls *)

Inductive gop : Type := OPut (a : name) (l : option nat) | OField (v : name) | OPerm (v : name) (n nbits : nat).

Definition gg_step (g : ggl) (o : gop) : res ggl :=
  match o with
  | OPut a l => Ok (gg_put g a l)
  | OField v => gg_field g v
  | OPerm v n b => gg_perm g v n b
  end.
Definition gg_run (h : list gop) (g : ggl) : res ggl := foldM gg_step h g.

Definition gq_step (g : gq) (o : gop) : res gq :=
  match o with
  | OPut a l => Ok (gq_put g a l)
  | OField v => gq_field g v
  | OPerm v n b => gq_perm g v n b
  end.
Definition gq_run (h : list gop) (g : gq) : res gq := foldM gq_step h g.

(* the calls of the generators: stark_verifier_circom.rs:993-1020 and stark_verifier_circom_onchain.rs:998-1025;
   [pubs], [evals], [steps] and [final] are the numbers of publics, evaluations, FRI steps and values of the
   last polynomial, [rl] is Some 4 in the first and None in the second, and a number in a name is an index *)
Definition gen_ops (rl : option nat) (pubs evals steps final nq b : nat) : list gop :=
  let N s := NBase s in
  let ch i := OField (NIdx (N "challenges"%string) i) in
  [OPut (N "publics"%string) (Some pubs); OPut (N "root1"%string) rl; ch 0; ch 1;
   OPut (N "root2"%string) rl; ch 2; ch 3; OPut (N "root3"%string) rl; ch 4;
   OPut (N "root4"%string) rl; ch 7]
  ++ map (fun i => OPut (NIdx (N "evals"%string) i) (Some 3)) (seq 0 evals)
  ++ [ch 5; ch 6]
  ++ flat_map (fun si =>
       OField (NIdx (N "s_specialX"%string) si) ::
       (if si <? steps - 1 then [OPut (NIdx (N "s_root"%string) (si + 1)) rl]
        else map (fun j => OPut (NIdx (N "finalPol"%string) j) (Some 3)) (seq 0 final))) (seq 0 steps)
  ++ [OPerm (N "ys"%string) nq b].

(** * What the statements ask for *)

(* over the Goldilocks field: signals are field elements.  Poseidon(12) stands for the function [perm] of
   the transcript and Num2Bits_strict for the bits of the number below p; both templates are outside this
   repository *)
Definition stm_gl (perm : list Fr -> list Fr -> list Fr) (val : sgn -> Fr) (c : gstm) : Prop :=
  match c with
  | GHash k ins st => forall i, i < 12 -> val (SHash k i) = nth i (perm (map val ins) (map val st)) f0
  | GBits k s => forall i, i < 64 -> val (SBits k i) = fof (Z.b2z (Z.testbit (fint (val s)) (Z.of_nat i)))
  | GAssign n s => val (SName n) = val s
  | GSplit _ _ => False
  end.

(* over the scalar field of order r: signals are numbers below r, PoseidonEx(16,17) stands for [cperm], and
   the bit decomposition is circomlib's Num2Bits_strict() (BN128) or Num2Bits(255) (BLS12381) by line 149-153 *)
Definition stm_q (r : Z) (cperm : list Z -> Z -> list Z) (strict : bool) (val : sgn -> Z) (c : gstm) : Prop :=
  match c with
  | GHash k ins st => forall i, i < 17 -> val (SHash k i) = nth i (cperm (map val ins) (val (hd SZero st))) 0%Z
  | GSplit k s => BN1toGL3 r (val s) (val (SSplit k 0), val (SSplit k 1), val (SSplit k 2))
  | GBits k s =>
    if strict then forall i, i < 254 -> val (SBits k i) = Z.b2z (Z.testbit (val s) (Z.of_nat i))
    else Num2Bits r 255 (val s) (map (fun i => val (SBits k i)) (seq 0 255))
  | GAssign n s => val (SName n) = val s
  end.
