(* The two BLS12-381 hashes of the source on one literal input. *)
From Verif Require Import Base ListAux HashModel PosModel ZqField PosBig PosBnModel BlsTab.
From Bignums Require Import BigZ.
Open Scope nat_scope.
Open Scope res_scope.

(* tables whose entries for the width 2 are the source's *)
Definition bls_ref_at2 (k : pconsts (Zq bls_r)) : Prop :=
  pc_nf k = 8 /\ pc_np k = bls_rounds_p /\ vget (pc_c k) 0 = load1 bls_r bls_c2 /\ vget (pc_m k) 0 = load2 bls_r bls_m2.
Definition bls_opt_at2 (k : pconsts (Zq bls_r)) : Prop :=
  pc_nf k = 8 /\ pc_np k = bls_opt_rounds_p /\ vget (pc_c k) 0 = load1 bls_r bls_C2 /\ vget (pc_m k) 0 = load2 bls_r bls_M2 /\
  vget (pc_p k) 0 = load2 bls_r bls_P2 /\ vget (pc_s k) 0 = load1 bls_r bls_S2.

Definition b_ref (st : list Z) := permute_ref BigZ.t BigZ.zero (b_add bls_r) (b_mul bls_r) (pow5 (b_mul bls_r)) 8 56
  (map BigZ.of_Z bls_c2) (map (map BigZ.of_Z) bls_m2) (map BigZ.of_Z st).
Definition b_opt (st : list Z) := permute_opt BigZ.t BigZ.zero (b_add bls_r) (b_mul bls_r) (pow5 (b_mul bls_r)) 8 55
  (map BigZ.of_Z bls_C2) (map BigZ.of_Z bls_S2) (map (map BigZ.of_Z) bls_M2) (map (map BigZ.of_Z) bls_P2) (map BigZ.of_Z st).

Definition first2 (r : res (list BigZ.t)) (u v : Z) : bool :=
  match r with Ok [a; b] => BigZ.eqb a (BigZ.of_Z u) && BigZ.eqb b (BigZ.of_Z v) | _ => false end.
Lemma first2_spec q r u v : first2 r u v = true -> exists b, r = Ok b /\ map (bof q) b = [zq_of q u; zq_of q v].
Proof.
  destruct r as [[|a [|b [|]]]| | |]; try discriminate. cbn [first2]. intros E. apply andb_prop in E. destruct E as [E1 E2].
  rewrite BigZ.spec_eqb in E1, E2. apply Z.eqb_eq in E1. apply Z.eqb_eq in E2. rewrite BigZ.spec_of_Z in E1, E2.
  exists [a; b]. split; [reflexivity|]. cbn [map]. unfold bof. rewrite E1, E2. reflexivity.
Qed.
Definition r0 : Z := 33312903538086167554741214005086116725441315171650202128840830167854170336490%Z.
Definition r1 : Z := 11499867290439247610805522547127991157918887111436139561537482265228419421134%Z.
Definition o0 : Z := 19937830957782062690016225784183033800976712111361678471196960469719362042326%Z.
Definition o1 : Z := 10090463338479474364654416042385169859560025017303585988626920959727361545503%Z.
Lemma ev_r : first2 (b_ref [0; 1]%Z) r0 r1 = true. Proof. vm_cast_no_check (eq_refl true). Qed.
Lemma ev_o : first2 (b_opt [0; 1]%Z) o0 o1 = true. Proof. vm_cast_no_check (eq_refl true). Qed.

Lemma bload1 l : lits bls_r l = true -> load1 bls_r l = Ok (map (zq_of bls_r) l).
Proof.
  unfold load1, lits. induction l as [|v l IH]; intros H; [reflexivity|]. cbn [forallb mapM map] in *. apply andb_prop in H. destruct H as [V H].
  unfold from_hex. unfold lit in V. apply andb_prop in V. destruct V as [_ V]. rewrite V. cbn [bind]. unfold from_hex in IH. rewrite (IH H). reflexivity.
Qed.
Lemma bload2 m : forallb (lits bls_r) m = true -> load2 bls_r m = Ok (map (map (zq_of bls_r)) m).
Proof.
  unfold load2. induction m as [|v l IH]; intros H; [reflexivity|]. cbn [forallb mapM map] in *. apply andb_prop in H. destruct H as [V H].
  rewrite (bload1 v V). cbn [bind]. rewrite (IH H). reflexivity.
Qed.
Lemma lc : lits bls_r bls_c2 = true. Proof. vm_cast_no_check (eq_refl true). Qed.
Lemma lm : forallb (lits bls_r) bls_m2 = true. Proof. vm_cast_no_check (eq_refl true). Qed.
Lemma lC : lits bls_r bls_C2 = true. Proof. vm_cast_no_check (eq_refl true). Qed.
Lemma lS : lits bls_r bls_S2 = true. Proof. vm_cast_no_check (eq_refl true). Qed.
Lemma lM : forallb (lits bls_r) bls_M2 = true. Proof. vm_cast_no_check (eq_refl true). Qed.
Lemma lP : forallb (lits bls_r) bls_P2 = true. Proof. vm_cast_no_check (eq_refl true). Qed.
Opaque bls_c2 bls_m2 bls_C2 bls_S2 bls_M2 bls_P2.

Notation one := (zq_of bls_r 1).
Notation zro := (zq_of bls_r 0).
Lemma bls_ref_1 k : bls_ref_at2 k -> forall out, out <= 2 ->
  hash_ref (Zq bls_r) zro q_add q_mul (pow5 q_mul) k [one] zro out = Ok (firstn out [zq_of bls_r r0; zq_of bls_r r1]).
Proof.
  intros (NF & NP & C & M) out O. unfold hash_ref. rewrite NF, NP. cbn [length Nat.add Nat.sub Nat.eqb Nat.ltb orb]. cbv zeta.
  change ((1 =? 0) || (length bls_rounds_p <? 1)) with false. cbv iota.
  change (vget bls_rounds_p 0) with (Ok (A := nat) 56). rewrite C, M, (bload1 _ lc), (bload2 _ lm). cbn [bind].
  destruct (first2_spec bls_r _ _ _ ev_r) as (b & B & E). pose proof (ev_ref_q bls_r 8 56 bls_c2 bls_m2 [0; 1]%Z b B) as Q. cbn [map] in Q.
  rewrite Q. cbn [bind]. rewrite E. unfold take_out, slice. cbn [length]. destruct out as [|[|[|out]]]; try reflexivity. lia.
Qed.
Lemma bls_opt_1 k : bls_opt_at2 k -> forall out, out <= 2 ->
  hash_opt (Zq bls_r) zro q_add q_mul (pow5 q_mul) k [one] zro out = Ok (firstn out [zq_of bls_r o0; zq_of bls_r o1]).
Proof.
  intros (NF & NP & C & M & P & S0) out O. unfold hash_opt. rewrite NF, NP. cbn [length Nat.add Nat.sub Nat.eqb Nat.ltb orb]. cbv zeta.
  change ((1 =? 0) || (length bls_opt_rounds_p <? 1)) with false. cbv iota.
  change (vget bls_opt_rounds_p 0) with (Ok (A := nat) 55). rewrite C, M, P, S0, (bload1 _ lC), (bload1 _ lS), (bload2 _ lM), (bload2 _ lP). cbn [bind].
  destruct (first2_spec bls_r _ _ _ ev_o) as (b & B & E). pose proof (ev_opt_q bls_r 8 55 bls_C2 bls_S2 bls_M2 bls_P2 [0; 1]%Z b B) as Q. cbn [map] in Q.
  rewrite Q. cbn [bind]. rewrite E. unfold take_out, slice. cbn [length]. destruct out as [|[|[|out]]]; try reflexivity. lia.
Qed.

Lemma zq_neq q u v : (u mod q =? v mod q)%Z = false -> zq_of q u <> zq_of q v.
Proof. intros H E. apply (f_equal zw) in E. cbn in E. rewrite E, Z.eqb_refl in H. discriminate H. Qed.
Lemma n_01 : (r0 mod bls_r =? o1 mod bls_r)%Z = false. Proof. vm_cast_no_check (eq_refl false). Qed.
Lemma n_00 : (r0 mod bls_r =? o0 mod bls_r)%Z = false. Proof. vm_cast_no_check (eq_refl false). Qed.

Theorem bls_differ k k' : bls_ref_at2 k -> bls_opt_at2 k' ->
  (exists a b, bls_hash k [one] zro = Ok a /\ bls_opt_hash k' [one] zro = Ok b /\ a <> b) /\
  hash_ref (Zq bls_r) zro q_add q_mul (pow5 q_mul) k [one] zro 1 <> hash_opt (Zq bls_r) zro q_add q_mul (pow5 q_mul) k' [one] zro 1.
Proof.
  intros K K'. split.
  - exists (zq_of bls_r r0), (zq_of bls_r o1). unfold bls_hash, bls_opt_hash. rewrite (bls_ref_1 k K 1) by lia. rewrite (bls_opt_1 k' K' 2) by lia.
    split; [reflexivity|]. split; [reflexivity|]. apply zq_neq. exact n_01.
  - rewrite (bls_ref_1 k K 1) by lia. rewrite (bls_opt_1 k' K' 1) by lia. cbn [firstn]. intros E.
    apply (f_equal (fun r => match r with Ok (x :: _) => x | _ => one end)) in E. cbv beta iota in E. revert E. apply zq_neq. exact n_00.
Qed.
Definition bls_k : pconsts (Zq bls_r) := mkPC [map (zq_of bls_r) bls_c2] [map (map (zq_of bls_r)) bls_m2] [] [] 8 bls_rounds_p.
Definition bls_k' : pconsts (Zq bls_r) :=
  mkPC [map (zq_of bls_r) bls_C2] [map (map (zq_of bls_r)) bls_M2] [map (map (zq_of bls_r)) bls_P2] [map (zq_of bls_r) bls_S2] 8 bls_opt_rounds_p.
Lemma bls_k_at2 : bls_ref_at2 bls_k /\ bls_opt_at2 bls_k'.
Proof.
  unfold bls_ref_at2, bls_opt_at2. rewrite (bload1 _ lc), (bload2 _ lm), (bload1 _ lC), (bload1 _ lS), (bload2 _ lM), (bload2 _ lP).
  repeat split; reflexivity.
Qed.
