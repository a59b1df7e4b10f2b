(* Evaluating the equations of PosOpt and the permutations with big integers over machine words. *)
From Verif Require Import Base ListAux HashModel AvxModel PosModel PosRing PosOpt ZqField PosHom.
From Bignums Require Import BigZ.
Open Scope nat_scope.

Definition bn_q : Z := 21888242871839275222246405745257275088548364400416034343698204186575808495617%Z.
Definition bl_q : Z := 52435875175126190479447740508185965837690552500527637822603658699938581184513%Z.

Notation bz := BigZ.of_Z (only parsing).
Definition bred (q : Z) (x : BigZ.t) : BigZ.t := BigZ.modulo x (BigZ.of_Z q).
Definition bcongr (q : Z) (p : list BigZ.t * list BigZ.t) : bool :=
  (length (fst p) =? length (snd p)) &&
  forallb (fun ab => BigZ.eqb (bred q (BigZ.sub (fst ab) (snd ab))) BigZ.zero) (combine (fst p) (snd p)).
Definition lit (q v : Z) : bool := ((0 <=? v) && (v <? q))%Z.
Definition lits (q : Z) (l : list Z) : bool := forallb (lit q) l.
(* everything wanted of the tables of one width *)
Definition bcheck (q : Z) (h np t : nat) (c : list Z) (m : list (list Z)) (C S : list Z) (Mo P : list (list Z)) : bool :=
  zlens h np t c m C S Mo P
  && (lits q c && forallb (lits q) m && lits q C && lits q S && forallb (lits q) Mo && forallb (lits q) P)
  && forallb (bcongr q) (obligations BigZ.t BigZ.zero BigZ.add BigZ.mul BigZ.sub (bred q) h np t
       (map bz c) (map (map bz) m) (map bz C) (map bz S) (map (map bz) Mo) (map (map bz) P)).

Definition bof (q : Z) (x : BigZ.t) : Zq q := zq_of q (BigZ.to_Z x).
Lemma bof_0 q : bof q BigZ.zero = zq_of q 0. Proof. unfold bof. rewrite BigZ.spec_0. reflexivity. Qed.
Lemma bof_add q x y : bof q (BigZ.add x y) = q_add (bof q x) (bof q y). Proof. unfold bof. rewrite BigZ.spec_add, zq_add_of. reflexivity. Qed.
Lemma bof_mul q x y : bof q (BigZ.mul x y) = q_mul (bof q x) (bof q y). Proof. unfold bof. rewrite BigZ.spec_mul, zq_mul_of. reflexivity. Qed.
Lemma bof_sub q x y : bof q (BigZ.sub x y) = q_sub (bof q x) (bof q y). Proof. unfold bof. rewrite BigZ.spec_sub, zq_sub_of. reflexivity. Qed.
Lemma bof_red q x : bof q (bred q x) = bof q x. Proof. unfold bof, bred. rewrite BigZ.spec_modulo, BigZ.spec_of_Z, zq_of_red. reflexivity. Qed.
Lemma bof_bz q l : map (bof q) (map bz l) = map (zq_of q) l.
Proof. rewrite map_map. apply map_ext. intros z. unfold bof. rewrite BigZ.spec_of_Z. reflexivity. Qed.
Lemma bof_bzs q m : map (map (bof q)) (map (map bz) m) = map (map (zq_of q)) m.
Proof. rewrite map_map. apply map_ext. intros l. apply bof_bz. Qed.

Lemma bcongr_of q p : bcongr q p = true -> map (bof q) (fst p) = map (bof q) (snd p).
Proof.
  destruct p as [u v]. unfold bcongr. cbn [fst snd]. intros H. apply andb_prop in H. destruct H as [L H]. apply Nat.eqb_eq in L.
  revert v L H. induction u as [|a u IH]; intros [|b v] L H; try discriminate L; [reflexivity|]. cbn [combine forallb fst snd map] in *.
  apply andb_prop in H. destruct H as [E H]. rewrite (IH v); [|injection L; auto|exact H]. refine (f_equal2 cons _ eq_refl).
  rewrite BigZ.spec_eqb in E. unfold bred in E. rewrite BigZ.spec_modulo, BigZ.spec_sub, BigZ.spec_of_Z, BigZ.spec_0 in E.
  apply Z.eqb_eq in E. unfold bof. apply zq_of_eq. exact E.
Qed.

Lemma bcheck_ok q h np t c m C S Mo P : bcheck q h np t c m C S Mo P = true ->
  zlens h np t c m C S Mo P = true /\
  (lits q c = true /\ forallb (lits q) m = true /\ lits q C = true /\ lits q S = true /\ forallb (lits q) Mo = true /\ forallb (lits q) P = true) /\
  Forall (fun p => fst p = snd p) (obligations (Zq q) (zq_of q 0) q_add q_mul q_sub (fun x => x) h np t
    (map (zq_of q) c) (map (map (zq_of q)) m) (map (zq_of q) C) (map (zq_of q) S) (map (map (zq_of q)) Mo) (map (map (zq_of q)) P)).
Proof.
  unfold bcheck. intros H. apply andb_prop in H. destruct H as [H H3]. apply andb_prop in H. destruct H as [H1 H2].
  split; [exact H1|]. split; [rewrite !andb_true_iff in H2; tauto|].
  rewrite <- !bof_bz, <- !bof_bzs. rewrite (hom_obligations BigZ.t BigZ.zero BigZ.add BigZ.mul BigZ.sub (bred q)).
  - apply Forall_forall. intros x X. apply in_map_iff in X. destruct X as (p & <- & I). rewrite forallb_forall in H3.
    cbn [f2 fst snd]. apply bcongr_of. apply H3. exact I.
  - apply bof_0.
  - apply bof_add.
  - apply bof_mul.
  - apply bof_sub.
  - apply bof_red.
Qed.

(* the permutations commute with homomorphisms *)
Section Eval.
Variables A B : Type.
Variables (zero : A) (add mul : A -> A -> A) (sb : A -> A).
Variables (zero' : B) (add' mul' : B -> B -> B) (sb' : B -> B).
Variable f : A -> B.
Hypothesis f0 : f zero = zero'.
Hypothesis fadd : forall x y, f (add x y) = add' (f x) (f y).
Hypothesis fmul : forall x y, f (mul x y) = mul' (f x) (f y).
Hypothesis fsb : forall x, f (sb x) = sb' (f x).
Notation F := (map f).
Notation FF := (map (map f)).

Lemma ev_vget {X Y} (g : X -> Y) l i : vget (map g l) i = rmap g (vget l i).
Proof. unfold vget. rewrite nth_error_map. destruct (nth_error l i); reflexivity. Qed.
Lemma ev_mapM {X I} (g : X -> B) (a : I -> res X) (b : I -> res B) l : (forall x, b x = rmap g (a x)) -> mapM b l = rmap (map g) (mapM a l).
Proof.
  intros H. induction l as [|x l IH]; [reflexivity|]. cbn [mapM]. rewrite H, IH. destruct (a x); try reflexivity. cbn [rmap bind].
  destruct (mapM a l); reflexivity.
Qed.
Lemma ev_foldM {X Y I} (g : X -> Y) (a : X -> I -> res X) (b : Y -> I -> res Y) l : (forall s x, b (g s) x = rmap g (a s x)) ->
  forall s, foldM b l (g s) = rmap g (foldM a l s).
Proof.
  intros H. induction l as [|x l IH]; intros s; [reflexivity|]. cbn [foldM]. rewrite H. destruct (a s x); try reflexivity. cbn [rmap bind]. apply IH.
Qed.
Lemma ev_bind {X Y X' Y'} (g : X -> X') (h : Y -> Y') r (k : X -> res Y) (k' : X' -> res Y') : (forall x, k' (g x) = rmap h (k x)) ->
  bind (rmap g r) k' = rmap h (bind r k).
Proof. intros H. destruct r; try reflexivity. cbn [rmap bind]. apply H. Qed.

Lemma ev_add C st : forall off, add_consts B add' (F C) off (F st) = rmap F (add_consts A add C off st).
Proof.
  induction st as [|a st IH]; intros off; [reflexivity|]. cbn [map add_consts]. rewrite ev_vget. apply ev_bind. intros c.
  rewrite IH. apply ev_bind. intros r. cbn [rmap bind map]. rewrite fadd. reflexivity.
Qed.
Lemma ev_dot (g : nat -> res A) (g' : nat -> res B) st l : (forall j, g' j = rmap f (g j)) -> forall acc,
  foldM (fun acc j => bind (g' j) (fun k => bind (vget (F st) j) (fun s => Ok (add' acc (mul' k s))))) l (f acc)
  = rmap f (foldM (fun acc j => bind (g j) (fun k => bind (vget st j) (fun s => Ok (add acc (mul k s))))) l acc).
Proof.
  intros H. apply ev_foldM. intros s j. rewrite H. apply ev_bind. intros k. rewrite ev_vget. apply ev_bind. intros x.
  cbn [rmap bind]. rewrite fadd, fmul. reflexivity.
Qed.
Lemma bind_assoc' {X Y W} (r : res X) (k : X -> res Y) (j : Y -> res W) : bind r (fun x => bind (k x) j) = bind (bind r k) j.
Proof. destruct r; reflexivity. Qed.
Lemma foldM_ext {X I} (a b : X -> I -> res X) l : (forall s x, a s x = b s x) -> forall s, foldM a l s = foldM b l s.
Proof. intros H. induction l as [|x l IH]; intros s; [reflexivity|]. cbn [foldM]. rewrite H. destruct (b s x); try reflexivity. cbn [bind]. apply IH. Qed.
Lemma ev_mix M st : mix B zero' add' mul' (FF M) (F st) = rmap F (mix A zero add mul M st).
Proof.
  unfold mix. rewrite map_length. apply ev_mapM. intros i. rewrite <- f0.
  rewrite (foldM_ext _ (fun acc j => bind (bind (vget (FF M) i) (fun row => vget row j)) (fun k => bind (vget (F st) j) (fun s => Ok (add' acc (mul' k s))))))
    by (intros; apply bind_assoc').
  rewrite (foldM_ext (fun acc j => bind (vget M i) _) (fun acc j => bind (bind (vget M i) (fun row => vget row j)) (fun k => bind (vget st j) (fun s => Ok (add acc (mul k s))))))
    by (intros; apply bind_assoc').
  apply ev_dot. intros j. rewrite ev_vget. apply ev_bind. intros row. apply ev_vget.
Qed.
Lemma ev_sbox nf np st i : sbox B sb' nf np (F st) i = rmap F (sbox A sb nf np st i).
Proof.
  unfold sbox. destruct (_ || _).
  - cbn [rmap bind]. rewrite !map_map. refine (f_equal Ok _). apply map_ext. intros x. symmetry. apply fsb.
  - destruct st as [|a st]; [reflexivity|]. cbn [map rmap bind]. rewrite fsb. reflexivity.
Qed.
Lemma ev_ref nf np c m st : permute_ref B zero' add' mul' sb' nf np (F c) (FF m) (F st) = rmap F (permute_ref A zero add mul sb nf np c m st).
Proof.
  unfold permute_ref, ark. apply ev_foldM. intros s i. rewrite map_length, ev_add. apply ev_bind. intros s1. rewrite ev_sbox. apply ev_bind. intros s2. apply ev_mix.
Qed.

Lemma ev_mix_opt M st : mix_opt B zero' add' mul' (FF M) (F st) = rmap F (mix_opt A zero add mul M st).
Proof.
  unfold mix_opt. rewrite map_length. apply ev_mapM. intros i. rewrite <- f0.
  rewrite (foldM_ext _ (fun acc j => bind (bind (vget (FF M) j) (fun row => vget row i)) (fun k => bind (vget (F st) j) (fun s => Ok (add' acc (mul' k s))))))
    by (intros; apply bind_assoc').
  rewrite (foldM_ext (fun acc j => bind (vget M j) _) (fun acc j => bind (bind (vget M j) (fun row => vget row i)) (fun k => bind (vget st j) (fun s => Ok (add acc (mul k s))))))
    by (intros; apply bind_assoc').
  apply ev_dot. intros j. rewrite ev_vget. apply ev_bind. intros row. apply ev_vget.
Qed.
Lemma ev_sbs st : map sb' (F st) = F (map sb st).
Proof. rewrite !map_map. apply map_ext. intros x. symmetry. apply fsb. Qed.
Lemma ev_full C M t base n st : full_opt B zero' add' mul' sb' (F C) (FF M) t base n (F st) = rmap F (full_opt A zero add mul sb C M t base n st).
Proof. unfold full_opt. apply ev_foldM. intros s r. rewrite ev_sbs, ev_add. apply ev_bind. intros x. apply ev_mix_opt. Qed.
Lemma ev_partial C S t cb st r : partial_opt B zero' add' mul' sb' (F C) (F S) t cb (F st) r = rmap F (partial_opt A zero add mul sb C S t cb st r).
Proof.
  unfold partial_opt. destruct st as [|a st]; [reflexivity|]. cbn [map]. rewrite ev_vget. apply ev_bind. intros c. cbv zeta.
  rewrite <- fsb, <- fadd. change (f (add (sb a) c) :: F st) with (F (add (sb a) c :: st)). rewrite map_length.
  rewrite <- f0, (ev_dot (fun j => vget S ((t * 2 - 1) * r + j)) (fun j => vget (F S) ((t * 2 - 1) * r + j))) by (intros j; apply ev_vget). apply ev_bind. intros s0.
  rewrite (ev_mapM f (fun k => bind (vget S ((t * 2 - 1) * r + t + k - 1)) (fun c0 => bind (vget (add (sb a) c :: st) k) (fun s => Ok (add s (mul c0 (add (sb a) c))))))).
  - apply ev_bind. intros rest. reflexivity.
  - intros k. rewrite ev_vget. apply ev_bind. intros c0. rewrite ev_vget. apply ev_bind. intros s. cbn [rmap bind]. rewrite (fadd s), (fmul c0). reflexivity.
Qed.
Lemma ev_opt nf np C S M P st : permute_opt B zero' add' mul' sb' nf np (F C) (F S) (FF M) (FF P) (F st) = rmap F (permute_opt A zero add mul sb nf np C S M P st).
Proof.
  unfold permute_opt. rewrite map_length. cbv zeta. rewrite ev_add. apply ev_bind. intros s1. rewrite ev_full. apply ev_bind. intros s2.
  rewrite ev_sbs, ev_add. apply ev_bind. intros s3. rewrite ev_mix_opt. apply ev_bind. intros s4.
  rewrite (ev_foldM F (partial_opt A zero add mul sb C S (length st) ((nf / 2 + 1) * length st))) by (intros; apply ev_partial).
  apply ev_bind. intros s5. rewrite ev_full. apply ev_bind. intros s6. rewrite ev_sbs. apply ev_mix_opt.
Qed.
End Eval.

(* the permutations of a field of q elements, evaluated *)
Definition b_add (q : Z) x y := bred q (BigZ.add x y).
Definition b_mul (q : Z) x y := bred q (BigZ.mul x y).
Lemma ev_ref_q q nf np c m st r : permute_ref BigZ.t BigZ.zero (b_add q) (b_mul q) (pow5 (b_mul q)) nf np (map bz c) (map (map bz) m) (map bz st) = Ok r ->
  permute_ref (Zq q) (zq_of q 0) q_add q_mul (pow5 q_mul) nf np (map (zq_of q) c) (map (map (zq_of q)) m) (map (zq_of q) st) = Ok (map (bof q) r).
Proof.
  intros H. rewrite <- !bof_bz, <- bof_bzs. rewrite (ev_ref BigZ.t (Zq q) BigZ.zero (b_add q) (b_mul q) (pow5 (b_mul q))).
  - rewrite H. reflexivity.
  - apply bof_0.
  - intros. unfold b_add. rewrite bof_red. apply bof_add.
  - intros. unfold b_mul. rewrite bof_red. apply bof_mul.
  - intros. unfold pow5, b_mul. rewrite !bof_red, !bof_mul, !bof_red, !bof_mul, !bof_red, !bof_mul. reflexivity.
Qed.
Lemma ev_opt_q q nf np C S M P st r : permute_opt BigZ.t BigZ.zero (b_add q) (b_mul q) (pow5 (b_mul q)) nf np (map bz C) (map bz S) (map (map bz) M) (map (map bz) P) (map bz st) = Ok r ->
  permute_opt (Zq q) (zq_of q 0) q_add q_mul (pow5 q_mul) nf np (map (zq_of q) C) (map (zq_of q) S) (map (map (zq_of q)) M) (map (map (zq_of q)) P) (map (zq_of q) st) = Ok (map (bof q) r).
Proof.
  intros H. rewrite <- !bof_bz, <- !bof_bzs. rewrite (ev_opt BigZ.t (Zq q) BigZ.zero (b_add q) (b_mul q) (pow5 (b_mul q))).
  - rewrite H. reflexivity.
  - apply bof_0.
  - intros. unfold b_add. rewrite bof_red. apply bof_add.
  - intros. unfold b_mul. rewrite bof_red. apply bof_mul.
  - intros. unfold pow5, b_mul. rewrite !bof_red, !bof_mul, !bof_red, !bof_mul, !bof_red, !bof_mul. reflexivity.
Qed.
