(* Model of recursion/src/compressor12/plonk_setup.rs: the layout of a PLONK circuit in the twelve
   column compressor.
   A table indexed [column][row] is a function; writing outside of its bounds panics. The constant
   polynomials start as zero (polsarray.rs:38-103) and have one row per row of the rendered PIL. *)
From Verif Require Import Base GlModel FrField PolyModel PlonkModel.
Open Scope nat_scope.
Open Scope res_scope.

Definition grid (A : Type) := nat -> nat -> A.
Definition gset {A} (t : grid A) (c r : nat) (v : A) : grid A :=
  fun c' r' => if (c' =? c) && (r' =? r) then v else t c' r'.

(* compressor12_pil.rs:10-22 *)
Inductive selector := EVPOL4 | CMULADD | GATE | POSEIDON12 | PARTIAL | FFT4.
Definition sel_eqb (a b : selector) : bool :=
  match a, b with
  | EVPOL4, EVPOL4 | CMULADD, CMULADD | GATE, GATE | POSEIDON12, POSEIDON12 | PARTIAL, PARTIAL | FFT4, FFT4 => true
  | _, _ => false
  end.

(* s_map, the constants C[12] and the selectors *)
Record tables := mkT { sm : grid nat; cm : grid Fr; sel : selector -> nat -> Fr }.
(* their numbers of rows *)
Record dims := mkD { n_used : nat; n_rows : nat }.

Definition set_s (d : dims) (c r v : nat) (t : tables) : res tables :=
  if (c <? 12) && (r <? n_used d) then Ok (mkT (gset (sm t) c r v) (cm t) (sel t)) else Panic.
(* polsarray.rs:118-129 set_matrix *)
Definition set_c (d : dims) (c r : nat) (v : Fr) (t : tables) : res tables :=
  if (c <? 12) && (r <? n_rows d) then Ok (mkT (sm t) (gset (cm t) c r v) (sel t)) else Panic.
Definition set_sel (d : dims) (n : selector) (r : nat) (v : Fr) (t : tables) : res tables :=
  if r <? n_rows d then Ok (mkT (sm t) (cm t) (fun m r' => if sel_eqb m n && (r' =? r) then v else sel t m r')) else Panic.

(* the loops writing several columns of one row *)
Definition set_ss d r (l : list (nat * nat)) t := foldM (fun t cv => set_s d (fst cv) r (snd cv) t) l t.
Definition set_cs d r (l : list (nat * Fr)) t := foldM (fun t cv => set_c d (fst cv) r (snd cv) t) l t.
Definition set_sels d r (l : list (selector * Fr)) t := foldM (fun t cv => set_sel d (fst cv) r (snd cv) t) l t.

(* ---- the public rows ---- *)
(* usize subtraction below zero is treated as a panic (in release mode it wraps and the allocation
   that follows fails) *)
Definition usub (a b : nat) : res nat := if a <? b then Panic else Ok (a - b).

(* plonk_setup.rs:184, 221 *)
Definition n_public_rows (n_publics : nat) : res nat := do x <- usub n_publics 1; Ok (x / 12 + 1).

(* plonk_setup.rs:229-259 *)
Definition public_rows (d : dims) (n_publics npr : nat) (t : tables) : res tables :=
  do t1 <- foldM (fun t i =>
      do t' <- set_sels d i [(EVPOL4, f0); (CMULADD, f0); (GATE, f0); (POSEIDON12, f0); (PARTIAL, f0); (FFT4, f0)] t;
      set_cs d i (map (fun k => (k, f0)) (seq 0 12)) t') (seq 0 npr) t;
  do t2 <- foldM (fun t i => set_s d (i mod 12) (i / 12) (1 + i) t) (seq 0 n_publics) t1;
  foldM (fun t i => set_s d (i mod 12) (i / 12) 0 t) (seq n_publics (npr * 12 - n_publics)) t2.

(* ---- the ordinary gates ---- *)
(* r1cs2plonk.rs:30-39 str_key: five hexadecimal numbers separated by commas; the model keeps the five
   numbers, which determine the string and are determined by it *)
Definition key := (Z * Z * Z * Z * Z)%type.
Definition str_key (g : PlonkGate) : key :=
  (fint (g_qm g), fint (g_ql g), fint (g_qr g), fint (g_qo g), fint (g_qc g)).
Definition key_eqb (a b : key) : bool :=
  let '(a1, a2, a3, a4, a5) := a in let '(b1, b2, b3, b4, b5) := b in
  (Z.eqb a1 b1 && Z.eqb a2 b2 && Z.eqb a3 b3 && Z.eqb a4 b4 && Z.eqb a5 b5)%bool.

(* ParRow: row and n_used *)
Definition parrow := (nat * nat)%type.
(* partial_rows: BTreeMap<String, ParRow>, here in order of insertion *)
Definition partials := list (key * parrow).
Fixpoint pget (k : key) (p : partials) : option parrow :=
  match p with [] => None | (k', v) :: r => if key_eqb k k' then Some v else pget k r end.
Definition premove (k : key) (p : partials) : partials := filter (fun e => negb (key_eqb k (fst e))) p.
Definition pupdate (k : key) (v : parrow) (p : partials) : partials :=
  map (fun e => if key_eqb k (fst e) then (fst e, v) else e) p.

Record layout := mkL { tb : tables; row : nat; partial : partials; half : list parrow }.

Definition consts (b : nat) (g : PlonkGate) : list (nat * Fr) :=
  [(b + 3, g_qm g); (b, g_ql g); (b + 1, g_qr g); (b + 2, g_qo g); (b + 4, g_qc g); (b + 5, f0)].

(* plonk_setup.rs:272-343, one iteration *)
Definition place (d : dims) (l : layout) (g : PlonkGate) : res layout :=
  let k := str_key g in
  match pget k (partial l) with
  | Some (r, n) =>
      do t <- set_ss d r [(n * 3, g_sl g); (n * 3 + 1, g_sr g); (n * 3 + 2, g_so g)] (tb l);
      let n' := n + 1 in
      if n' =? 2 then Ok (mkL t (row l) (premove k (partial l)) (half l ++ [(r, n')]))
      else if n' =? 4 then Ok (mkL t (row l) (premove k (partial l)) (half l))
      else Ok (mkL t (row l) (pupdate k (r, n') (partial l)) (half l))
  | None =>
      match half l with
      | (r, n) :: hs =>
          do t <- set_cs d r (consts 6 g) (tb l);
          do t <- set_ss d r [(n * 3, g_sl g); (n * 3 + 1, g_sr g); (n * 3 + 2, g_so g)] t;
          Ok (mkL t (row l) (partial l ++ [(k, (r, n + 1))]) hs)
      | [] =>
          let r := row l in
          do t <- set_cs d r (consts 0 g) (tb l);
          do t <- set_sels d r [(GATE, f1); (POSEIDON12, f0); (PARTIAL, f0); (CMULADD, f0); (EVPOL4, f0); (FFT4, f0)] t;
          do t <- set_ss d r [(0, g_sl g); (1, g_sr g); (2, g_so g)] t;
          Ok (mkL t (r + 1) (partial l ++ [(k, (r, 1))]) (half l))
      end
  end.

(* plonk_setup.rs:346-361, one entry *)
Definition terminate_one (d : dims) (th : tables * list parrow) (e : key * parrow) : res (tables * list parrow) :=
  let '(t, h) := th in let '(_, (r, n)) := e in
  if n =? 1 then
    do t' <- set_ss d r [(3, sm t 0 r); (4, sm t 1 r); (5, sm t 2 r)] t; Ok (t', h ++ [(r, n + 1)])
  else if n =? 3 then
    do t' <- set_ss d r [(9, sm t 6 r); (10, sm t 7 r); (11, sm t 8 r)] t; Ok (t', h)
  else Panic.

(* plonk_setup.rs:363-380 *)
Definition clear_half (d : dims) (t : tables) (e : parrow) : res tables :=
  do t' <- set_ss d (fst e) [(6, 0); (7, 0); (8, 0); (9, 0); (10, 0); (11, 0)] t;
  set_cs d (fst e) [(9, f0); (6, f0); (7, f0); (8, f0); (10, f0); (11, f0)] t'.

Section Order.
  (* the order in which BTreeMap::iter_mut yields the entries: that of the key strings. Only the
     fact that every entry is yielded once is used. *)
  Variable order : partials -> partials.
  Definition place_gates (d : dims) (gs : list PlonkGate) (t : tables) (r0 : nat) : res (tables * nat) :=
    do l <- foldM (place d) gs (mkL t r0 [] []);
    do (t', h) <- foldM (terminate_one d) (order (partial l)) (tb l, half l);
    do t'' <- foldM (clear_half d) h t';
    Ok (t'', row l).
End Order.

(* ---- NormalPlonkInfo ---- *)
(* plonk_setup.rs:56-66: how often each key occurs *)
Fixpoint bump (k : key) (u : list (key * nat)) : list (key * nat) :=
  match u with
  | [] => [(k, 1)]
  | (k', n) :: r => if key_eqb k k' then (k', n + 1) :: r else (k', n) :: bump k r
  end.
Definition uses (gs : list PlonkGate) : list (key * nat) := fold_left (fun u g => bump (str_key g) u) gs [].
(* plonk_setup.rs:67-71 (sorting does not change the sum) *)
Definition plonk_info (gs : list PlonkGate) : res nat :=
  let n := fold_left (fun acc x => acc + (snd x - 1) / 2 + 1) (uses gs) 0 in
  do x <- usub n 1; Ok (x / 2 + 1).

(* ---- custom gates ---- *)
(* the template names accepted at plonk_setup.rs:110-127; CustomGates and CustomGatesUses are
   algebraic/src/circom_circuit.rs *)
Inductive template := TCMulAdd | TPoseidon12 | TEvPol4 | TFFT4 | TOther.
Record custom_gate := mkCG { template_name : template; parameters : list Fr }.
Record custom_use := mkCU { cg_id : nat; signals : list nat }.

Record gate_info := mkGI { poseidon_id : nat; c_mul_add_id : nat; fft_params : list (nat * list Fr); ev_pol_id : nat }.
Fixpoint fft_get (i : nat) (m : list (nat * list Fr)) : option (list Fr) :=
  match m with [] => None | (k, v) :: r => if i =? k then Some v else fft_get i r end.

(* plonk_setup.rs:102-128 *)
Fixpoint gate_ids (i : nat) (l : list custom_gate) (gi : gate_info) : res gate_info :=
  match l with
  | [] => Ok gi
  | c :: r =>
      let empty := match parameters c with [] => true | _ => false end in
      match template_name c with
      | TCMulAdd => if empty then gate_ids (i + 1) r (mkGI (poseidon_id gi) i (fft_params gi) (ev_pol_id gi)) else Panic
      | TPoseidon12 => if empty then gate_ids (i + 1) r (mkGI i (c_mul_add_id gi) (fft_params gi) (ev_pol_id gi)) else Panic
      | TEvPol4 => if empty then gate_ids (i + 1) r (mkGI (poseidon_id gi) (c_mul_add_id gi) (fft_params gi) i) else Panic
      | TFFT4 => gate_ids (i + 1) r (mkGI (poseidon_id gi) (c_mul_add_id gi) ((i, parameters c) :: fft_params gi) (ev_pol_id gi))
      | TOther => Panic
      end
  end.
(* plonk_setup.rs:130-147: the use counts as a CMulAdd, a Poseidon, an FFT or an EvPol, in this order.
   The model returns the number of rows reserved for it at 188-192. *)
Definition counted_rows (gi : gate_info) (c : custom_use) : res nat :=
  if cg_id c =? c_mul_add_id gi then Ok 1
  else if cg_id c =? poseidon_id gi then Ok 31
  else match fft_get (cg_id c) (fft_params gi) with
  | Some _ => Ok 2
  | None => if cg_id c =? ev_pol_id gi then Ok 2 else Panic
  end.
Definition custom_rows (gi : gate_info) (us : list custom_use) : res nat :=
  do l <- mapM (counted_rows gi) us; Ok (fold_left Nat.add l 0).

Definition off_but (on : selector) (v : Fr) (l : list selector) : list (selector * Fr) := map (fun s => (s, f0)) l ++ [(on, v)].

(* plonk_setup.rs:389-430: 31 rows; cgu.signals must have 31*12 elements *)
Definition put_poseidon_row (cposeidon : list Z) (d : dims) (r : nat) (sg : list nat) (t : tables) (j : nat) : res tables :=
  do t <- foldM (fun t k =>
      do s <- vget sg (j * 12 + k); do t <- set_s d k (r + j) s t;
      do c <- vget cposeidon (j * 12 + k); set_c d k (r + j) (fof c) t) (seq 0 12) t;
  do t <- set_sels d (r + j) [(GATE, f0); (CMULADD, f0); (EVPOL4, f0); (FFT4, f0)] t;
  do t <- set_sels d (r + j) [(POSEIDON12, if j <? 30 then f1 else f0)] t;
  set_sels d (r + j) [(PARTIAL, if (4 <=? j) && (j <? 26) then f1 else f0)] t.
Definition put_poseidon (cposeidon : list Z) (d : dims) (r : nat) (sg : list nat) (t : tables) : res tables :=
  if negb (length sg =? 31 * 12) then Panic
  else foldM (put_poseidon_row cposeidon d r sg) (seq 0 31) t.

(* plonk_setup.rs:432-470: when r >= n_used the signals are not written *)
Definition put_cmuladd (d : dims) (r : nat) (sg : list nat) (t : tables) : res tables :=
  do t <- (if r <? n_used d then foldM (fun t j => do s <- vget sg j; set_s d j r s t) (seq 0 12) t else Ok t);
  do t <- set_sels d r (off_but CMULADD f1 [GATE; POSEIDON12; PARTIAL; EVPOL4; FFT4]) t;
  set_cs d r (map (fun i => (i, if (i =? 9) || (i =? 10) then f1 else f0)) (seq 0 12)) t.

(* plonk_setup.rs:472-593 *)
Definition put_fft (d : dims) (r : nat) (params : list Fr) (sg : list nat) (t : tables) : res tables :=
  do t <- foldM (fun t j => do s <- vget sg j; do t <- set_s d j r s t;
                            do s <- vget sg (12 + j); set_s d j (r + 1) s t) (seq 0 12) t;
  do t <- set_sels d r (off_but FFT4 f1 [GATE; POSEIDON12; CMULADD; PARTIAL; EVPOL4]) t;
  do t <- set_sels d (r + 1) (map (fun s => (s, f0)) [GATE; POSEIDON12; CMULADD; PARTIAL; EVPOL4; FFT4]) t;
  do ty <- vget params 3; do scale <- vget params 2; do incW <- vget params 1; do firstW <- vget params 0;
  let firstW2 := fmul firstW firstW in
  do t <- (if Z.eqb (fint ty) 4 then
      do t <- set_cs d r [(6, f0); (7, f0); (8, f0)] t;
      set_cs d r [(0, scale); (1, fmul scale firstW2); (2, fmul scale firstW); (3, fmul (fmul scale firstW) firstW2);
                  (4, fmul (fmul scale firstW) incW); (5, fmul (fmul (fmul scale firstW) firstW2) incW)] t
    else if Z.eqb (fint ty) 2 then
      do t <- set_cs d r (map (fun i => (i, f0)) (seq 0 6)) t;
      set_cs d r [(6, scale); (7, fmul scale firstW); (8, fmul (fmul scale firstW) incW)] t
    else Panic);
  do t <- set_cs d r [(9, f0); (10, f0); (11, f0)] t;
  set_cs d (r + 1) (map (fun k => (k, f0)) (seq 0 12)) t.

(* plonk_setup.rs:595-659 *)
Definition put_evpol (d : dims) (r : nat) (sg : list nat) (t : tables) : res tables :=
  do t <- foldM (fun t j => do s <- vget sg j; do t <- set_s d j r s t; set_c d j r f0 t) (seq 0 12) t;
  do t <- foldM (fun t j => do s <- vget sg (12 + j); do t <- set_s d j (r + 1) s t; set_c d j (r + 1) f0 t) (seq 0 9) t;
  do t <- foldM (fun t j => do t <- set_s d j (r + 1) 0 t; set_c d j (r + 1) f0 t) (seq 9 3) t;
  do t <- set_sels d r (off_but EVPOL4 f1 [GATE; POSEIDON12; CMULADD; PARTIAL; FFT4]) t;
  set_sels d (r + 1) (map (fun s => (s, f0)) [GATE; POSEIDON12; CMULADD; PARTIAL; EVPOL4; FFT4]) t.

(* plonk_setup.rs:383-663, one use: here Poseidon is tested before CMulAdd *)
Definition put_custom (cposeidon : list Z) (gi : gate_info) (d : dims) (tr : tables * nat) (c : custom_use) : res (tables * nat) :=
  let '(t, r) := tr in
  if cg_id c =? poseidon_id gi then do t' <- put_poseidon cposeidon d r (signals c) t; Ok (t', r + 31)
  else if cg_id c =? c_mul_add_id gi then do t' <- put_cmuladd d r (signals c) t; Ok (t', r + 1)
  else match fft_get (cg_id c) (fft_params gi) with
  | Some ps => do t' <- put_fft d r ps (signals c) t; Ok (t', r + 2)
  | None => if cg_id c =? ev_pol_id gi then do t' <- put_evpol d r (signals c) t; Ok (t', r + 2) else Panic
  end.

(* ---- the S polynomials ---- *)
(* plonk_setup.rs:666-685: S[0][i] = w^i, S[j][i] = w^i * ks[j-1]; ks has 11 elements *)
Fixpoint init_s (n i : nat) (w wn : Fr) (ks : list Fr) (s : grid Fr) : grid Fr :=
  match n with
  | O => s
  | S m => init_s m (i + 1) (fmul w wn) wn ks
             (fun c r => if r =? i then (match c with O => w | S c' => match nth_error ks c' with Some k => fmul w k | None => s c r end end) else s c r)
  end.

(* last_signal: BTreeMap<u64, Grid> *)
Fixpoint lget (k : nat) (m : list (nat * (nat * nat))) : option (nat * nat) :=
  match m with [] => None | (k', v) :: r => if k =? k' then Some v else lget k r end.

(* plonk_setup.rs:699-727, one cell (column j, row i); const_pols.get on a row out of range panics *)
Definition connect_cell (d : dims) (smap : grid nat) (st : grid Fr * list (nat * (nat * nat))) (ij : nat * nat)
  : res (grid Fr * list (nat * (nat * nat))) :=
  let '(s, ls) := st in let '(i, j) := ij in
  if i <? n_used d then
    let k := smap j i in
    if k =? 0 then Ok st
    else match lget k ls with
    | Some (cl, rl) =>
        if (i <? n_rows d) && (rl <? n_rows d) then
          let left := s cl rl in let right := s j i in
          Ok (gset (gset s j i left) cl rl right, ls)
        else Panic
    | None => Ok (s, ls ++ [(k, (j, i))])
    end
  else Ok st.
(* the cells of rows 0..r in the order of the two loops *)
Definition cells (r : nat) : list (nat * nat) := flat_map (fun i => map (fun j => (i, j)) (seq 0 12)) (seq 0 r).
Definition connect (d : dims) (smap : grid nat) (r : nat) (s : grid Fr) : res (grid Fr) :=
  do (s', _) <- foldM (connect_cell d smap) (cells r) (s, []); Ok s'.

(* plonk_setup.rs:731-757 *)
Definition fill_row (d : dims) (t : tables) (r : nat) : res tables :=
  do t <- set_sels d r [(EVPOL4, f0); (CMULADD, f0); (GATE, f0); (POSEIDON12, f0); (PARTIAL, f0); (FFT4, f0)] t;
  set_cs d r (map (fun k => (k, f0)) (seq 0 12)) t.

(* plonk_setup.rs:759-765: L_{i+1} is one at row i only *)
Definition lagrange (i j : nat) : Fr := if j =? i then f1 else f0.

(* ---- the whole setup ---- *)
Record circuit := mkCircuit { base : R1CS; custom_gates : list custom_gate; custom_uses : list custom_use }.
Record setup := mkSetup { su_dims : dims; su_bits : nat; su_publics : nat; su_gates : list PlonkGate; su_adds : list PlonkAdd; su_info : gate_info }.

(* algebraic/src/reader.rs:198-215 load_r1cs_from_bin (and 159-186 for JSON): the counts of a circuit
   whose header declares the public inputs, public outputs and wires *)
Definition load_r1cs (n_pub_in n_pub_out n_wires : nat) (cs : list constraint) : R1CS :=
  mkR1CS (1 + n_pub_in + n_pub_out) n_wires n_pub_out cs.

(* plonk_setup.rs:172-207 plonk_setup_render *)
Definition plonk_setup_render (c : circuit) (force_bits : nat) : res setup :=
  do (pg, pa) <- r1cs2plonk (base c);
  do n_plonk <- plonk_info pg;
  do gi <- gate_ids 0 (custom_gates c) (mkGI 0 0 [] 0);
  do n_custom <- custom_rows gi (custom_uses c);
  do n_publics <- usub (num_inputs (base c) + num_outputs (base c)) 1;
  do npr <- n_public_rows n_publics;
  let nu := npr + n_plonk + n_custom in
  do nu1 <- usub nu 1;
  let n_bits := if 0 <? force_bits then force_bits else Z.to_nat (log2_any (Z.of_nat nu1)) + 1 in
  Ok (mkSetup (mkD nu (2 ^ n_bits)) n_bits n_publics pg pa gi).

Section Compressor.
  Variable order : partials -> partials.
  (* constants.rs:1-374 CPOSEIDON *)
  Variable cposeidon : list Z.

  (* plonk_setup.rs:210-768 plonk_setup_compressor: the tables, S, and s_map as part of the tables *)
  Definition plonk_setup_compressor (c : circuit) (s : setup) : res (tables * grid Fr * nat) :=
    let d := su_dims s in
    do npr <- n_public_rows (su_publics s);
    do t <- public_rows d (su_publics s) npr (mkT (fun _ _ => 0) (fun _ _ => f0) (fun _ _ => f0));
    do (t, r) <- place_gates order d (su_gates s) t npr;
    do (t, r) <- foldM (put_custom cposeidon (su_info s) d) (custom_uses c) (t, r);
    do ks <- get_ks 11;
    do wn <- MG (su_bits s);
    let s0 := init_s (n_rows d) 0 f1 wn ks (fun _ _ => f0) in
    do sp <- connect d (sm t) r s0;
    do t <- foldM (fill_row d) (seq r (n_rows d - r)) t;
    Ok (t, sp, r).
End Compressor.
