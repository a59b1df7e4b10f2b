(* Model of starky/src/fft_p.rs and starky/src/fft_worker.rs over the cubic extension. Buffers are flat
   vectors of rows of n_pols values. rayon's parallel iterators run the closure once for every item and
   the items are disjoint pieces of the buffer: they are modelled in order. *)
From Verif Require Import Base GlModel FrField F3gModel PolyModel HashModel.
Open Scope nat_scope.
Open Scope res_scope.

(** ** bit reversal *)
(* fft_p.rs:17-24 cal, on 64-bit words; shifting left drops the high bits *)
Definition br_cal (x pow : Z) : Z :=
  let w64 := fun z => (z mod 2 ^ 64)%Z in
  let x := Z.lor (Z.shiftr x 16) (w64 (Z.shiftl x 16)) in
  let x := Z.lor (Z.shiftr (Z.land x 0xFF00FF00) 8) (w64 (Z.shiftl (Z.land x 0x00FF00FF) 8)) in
  let x := Z.lor (Z.shiftr (Z.land x 0xF0F0F0F0) 4) (w64 (Z.shiftl (Z.land x 0x0F0F0F0F) 4)) in
  let x := Z.lor (Z.shiftr (Z.land x 0xCCCCCCCC) 2) (w64 (Z.shiftl (Z.land x 0x33333333) 2)) in
  Z.shiftr (Z.lor (Z.shiftr (Z.land x 0xAAAAAAAA) 1) (w64 (Z.shiftl (Z.land x 0x55555555) 1))) (32 - pow).

(* fft_p.rs:12-14: the process-wide cache, a map from domain_pow to vectors behind a mutex; a panic
   while the lock is held poisons it *)
Record brstate : Type := mkBR { br_map : list (nat * list Z); br_poisoned : bool }.
Definition br_new : brstate := mkBR [] false.
Definition br_lookup (k : nat) (m : list (nat * list Z)) : list Z :=
  match find (fun e => fst e =? k) m with Some e => snd e | None => [] end.
Definition br_remove (k : nat) (m : list (nat * list Z)) : list (nat * list Z) := filter (fun e => negb (fst e =? k)) m.

(* fft_p.rs:15-48; the state is returned also after a panic *)
Definition BR (x k : nat) (st : brstate) : res nat * brstate :=
  if 32 <? k then (Panic, st)
  else if br_poisoned st then (Panic, st)
  else
    let cache := br_lookup k (br_map st) in
    let m := br_remove k (br_map st) in
    let cache_len := length cache in
    let n := 2 ^ k in
    let cache :=
      if (cache_len <=? n) || (cache_len <? x)
      then cache ++ map (fun i => br_cal (Z.of_nat i) (Z.of_nat k)) (seq cache_len (S (Nat.max n x) - cache_len))
      else cache in
    match nth_error cache x with
    | Some r => (Ok (Z.to_nat r), mkBR ((k, cache) :: m) false)
    | None => (Panic, mkBR m true)
    end.

(* fft_p.rs:49-67; when the entry is missing the second BR would lock the held mutex again *)
Definition BRs (start end_ k : nat) (st : brstate) : res (list nat) * brstate :=
  if end_ <=? start then (Panic, st)
  else
    match BR end_ k st with
    | (Ok _, st) =>
        match find (fun e => fst e =? k) (br_map st) with
        | None => (Hang, st)
        | Some (_, cache) =>
            match mapM (fun i => vget cache i) (seq start (end_ - start)) with
            | Ok l => (Ok (map Z.to_nat l), st)
            | _ => (Panic, mkBR (br_map st) true)
            end
        end
    | (_, st) => (Panic, st)
    end.

(** ** permutations of rows *)
(* fft_p.rs:69-88 *)
Definition transpose (dst src : list F3G) (n_pols nbits tbits : nat) : res (list F3G) :=
  let n := 2 ^ nbits in
  let w := 2 ^ tbits in
  let h := n / w in
  foldM (fun d i => foldM (fun d j => foldM (fun d k =>
    do v <- vget src ((j * w + i) * n_pols + k); vset d ((i * h + j) * n_pols + k) v)
    (seq 0 n_pols) d) (seq 0 h) d) (seq 0 w) dst.

(* fft_p.rs:90-107 *)
Definition bit_reverse (ris : list nat) (dst src : list F3G) (n_pols nbits : nat) : res (list F3G) :=
  let len := 2 ^ nbits * n_pols in
  if negb (len =? length dst) then Panic
  else mapM (fun j => do r <- vget ris (j / n_pols); vget src (r * n_pols + j mod n_pols)) (seq 0 len).

(* fft_p.rs:109-125; the chunks have n_pols elements, none is an error *)
Definition interpolate_bit_reverse (ris : list nat) (dst src : list F3G) (n_pols nbits : nat) : res (list F3G) :=
  let n := 2 ^ nbits in
  if (length dst <? n * n_pols) || (n_pols =? 0) then Panic
  else
    do rows <- mapM (fun i =>
      do r <- vget ris i;
      if n <? r then Panic else
      mapM (fun k => vget src ((n - r) mod n * n_pols + k)) (seq 0 n_pols)) (seq 0 n);
    Ok (concat rows ++ skipn (n * n_pols) dst).

(* fft_p.rs:127-142 *)
Definition inv_bit_reverse (ris : list nat) (dst src : list F3G) (n_pols nbits : nat) : res (list F3G) :=
  let n := 2 ^ nbits in
  let n_inv := e_inv (e_from (fof (Z.of_nat n))) in
  let len := n * n_pols in
  if negb (len =? length dst) then Panic
  else mapM (fun j =>
    do r <- vget ris (j / n_pols);
    if n <? r then Panic else
    do v <- vget src ((n - r) mod n * n_pols + j mod n_pols);
    Ok (e_mul v n_inv)) (seq 0 len).

(** ** fft_worker.rs *)
(* fft_worker.rs:4-23 interpolate_prepare_block; rows after the last full one keep their values *)
Fixpoint prep_rows (cnt width : nat) (w inc : F3G) (buff : list F3G) : list F3G :=
  match cnt with
  | O => buff
  | S c => map (fun x => e_mul x w) (firstn width buff) ++ prep_rows c width (e_mul w inc) inc (skipn width buff)
  end.
Definition interpolate_prepare_block (buff : list F3G) (width : nat) (start inc : F3G) : res (list F3G) :=
  if width =? 0 then Panic else Ok (prep_rows (length buff / width) width start inc buff).

(* fft_worker.rs:63-66: t and u are read, then both cells are written *)
Definition bf_cell (w : F3G) (buff : list F3G) (a b : nat) : res (list F3G) :=
  do x <- vget buff b;
  let t := e_mul w x in
  do u <- vget buff a;
  do buff <- vset buff a (e_add u t);
  vset buff b (e_sub u t).
(* fft_worker.rs:61-69 *)
Fixpoint bf_rows (cnt : nat) (pos md2 n_pols : nat) (w winc : F3G) (buff : list F3G) : res (list F3G) :=
  match cnt with
  | O => Ok buff
  | S c =>
      do buff <- foldM (fun b j => bf_cell w b (pos * n_pols + j) ((pos + md2) * n_pols + j)) (seq 0 n_pols) buff;
      bf_rows c (S pos) md2 n_pols (e_mul w winc) winc buff
  end.
(* fft_worker.rs:49-60 the first twiddle factor; MG.0[s].exp in the base field *)
Definition first_w (start nbits s blockbits layers : nat) : res F3G :=
  if blockbits <? s then
    if s <? layers then Panic else
    let width := 2 ^ (s - layers) in
    let height := 2 ^ nbits / width in
    if height =? 0 then Panic else
    let y := start / height in
    let x := start mod height in
    do g <- MG s;
    Ok (e_from (fexp g (Z.of_nat (x * width + y))))
  else Ok e_ONE.
(* fft_worker.rs:25-71. Subtractions that would go below zero panic. *)
Fixpoint fft_block (blockbits : nat) (buff : list F3G) (rel start n_pols nbits s layers : nat) : res (list F3G) :=
  let md2 := 2 ^ blockbits / 2 in
  let last := fun buff =>
    do w <- first_w start nbits s blockbits layers;
    do g <- (if md2 =? 0 then Ok f1 else MG layers);
    bf_rows md2 (start - rel) md2 n_pols w (e_from g) buff in
  match blockbits with
  | O => if 1 <? layers then Panic else last buff
  | S bb =>
      if layers <? blockbits then
        do buff <- fft_block bb buff rel start n_pols nbits s layers;
        fft_block bb buff rel (start + md2) n_pols nbits s layers
      else
        do buff <- (if 1 <? layers then
            if s =? 0 then Panic else
            do buff <- fft_block bb buff rel start n_pols nbits (s - 1) (layers - 1);
            fft_block bb buff rel (start + md2) n_pols nbits (s - 1) (layers - 1)
          else Ok buff);
        last buff
  end.

(** ** the transforms *)
(* one round of fft_p.rs:210-213: every chunk of blocksize rows *)
Definition fft_pass (bin : list F3G) (n_pols nbits blockbits i s_inc : nat) : res (list F3G) :=
  let bs := 2 ^ blockbits in
  if bs * n_pols =? 0 then Panic else
  do l <- mapM (fun jc => fft_block blockbits (snd jc) (fst jc * bs) (fst jc * bs) n_pols nbits (i + s_inc) s_inc)
    (combine (seq 0 (length bin)) (chunks (bs * n_pols) bin));
  Ok (concat l).
(* fft_p.rs:208-221, 310-321, 329-340: the rounds i = 0, blockbits, 2*blockbits, ... below nbits;
   returned: bin, bout and whether they have changed places an odd number of times *)
Fixpoint fft_rounds (cnt i : nat) (n_pols nbits blockbits : nat) (bin bout : list F3G) (swapped : bool) : res (list F3G * list F3G * bool) :=
  match cnt with
  | O => Ok (bin, bout, swapped)
  | S c =>
      if nbits <=? i then Ok (bin, bout, swapped) else
      let s_inc := Nat.min blockbits (nbits - i) in
      do bin <- fft_pass bin n_pols nbits blockbits i s_inc;
      if s_inc <? nbits then
        do bout <- transpose bout bin n_pols nbits s_inc;
        fft_rounds c (i + blockbits) n_pols nbits blockbits bout bin (negb swapped)
      else fft_rounds c (i + blockbits) n_pols nbits blockbits bin bout swapped
  end.
Definition all_rounds (n_pols nbits blockbits : nat) (bin bout : list F3G) : res (list F3G * list F3G * bool) :=
  if blockbits =? 0 then Panic (* step_by(0) *) else fft_rounds nbits 0 n_pols nbits blockbits bin bout false.

(* fft_p.rs:186-197, 269-278, 288-296 *)
Definition block_bits (workers n_pols nbits : nat) : res nat :=
  if workers * 8 =? 0 then Panic else
  let b := Z.to_nat (log2_any (Z.of_nat (2 ^ nbits * n_pols / (workers * 8)))) in
  Ok (Nat.min nbits (Nat.min 16 (Nat.max 12 b))).
(* fft_p.rs:200-205, 280-282, 298-300 *)
Definition n_transposes (nbits blockbits : nat) : res nat :=
  if nbits =? blockbits then Ok 0 else if blockbits =? 0 then Panic else Ok ((nbits - 1) / blockbits + 1).

(* fft_p.rs:173-223 _fft; buffdst after the call. [rev] is bit_reverse or inv_bit_reverse. *)
Definition p_fft (workers : nat) (inverse : bool) (src : list F3G) (n_pols nbits : nat) (dst : list F3G) (st : brstate)
    : res (list F3G) * brstate :=
  let n := 2 ^ nbits in
  let tmp := repeat e_ZERO (n * n_pols) in
  match block_bits workers n_pols nbits with
  | Ok bb =>
      match n_transposes nbits bb with
      | Ok nt =>
          let odd := Nat.odd nt in
          let '(bout, bin) := if odd then (tmp, dst) else (dst, tmp) in
          let '(ris, st) := BRs 0 n nbits st in
          (do ris <- ris;
           do bout <- (if inverse then inv_bit_reverse ris bout src n_pols nbits else bit_reverse ris bout src n_pols nbits);
           (* (bin, bout) = (bout, bin): bin is tmpbuff exactly when odd *)
           do r <- all_rounds n_pols nbits bb bout bin;
           let '(bin, bout, sw) := r in
           Ok (if xorb odd sw then bout else bin), st)
      | _ => (Panic, st)
      end
  | _ => (Panic, st)
  end.

(* fft_p.rs:144-171 interpolate_prepare *)
Definition per_thread (workers n_pols n : nat) : nat :=
  Nat.max (MIN_OPS / n_pols) (Nat.min (MAX_OPS / n_pols) ((n - 1) / workers + 1)).
Definition interpolate_prepare (workers : nat) (buff : list F3G) (n_pols nbits : nat) : res (list F3G) :=
  let n := 2 ^ nbits in
  if (workers =? 0) || (n_pols =? 0) then Panic else
  let per := per_thread workers n_pols n in
  if (length buff <? n * n_pols) || (per =? 0) then Panic else
  let inv_n := e_inv (e_from (fof (Z.of_nat n))) in
  do l <- mapM (fun jc => interpolate_prepare_block (snd jc) n_pols
      (e_mul inv_n (e_exp (e_from SHIFT) (Z.of_nat (fst jc * per)))) (e_from SHIFT))
    (combine (seq 0 n) (chunks (per * n_pols) (firstn (n * n_pols) buff)));
  Ok (concat l ++ skipn (n * n_pols) buff).

(* fft_p.rs:238-342 interpolate; buffdst after the call *)
Definition interpolate (workers : nat) (src : list F3G) (n_pols nbits : nat) (dst : list F3G) (nbitsext : nat) (st : brstate)
    : res (list F3G) * brstate :=
  match src with
  | [] => (Ok dst, st)
  | _ =>
    let n := 2 ^ nbits in
    let n_ext := 2 ^ nbitsext in
    let tmp := repeat e_ZERO (n_ext * n_pols) in
    match block_bits workers n_pols nbits with
    | Ok bb =>
      match n_transposes nbits bb with
      | Ok nt1 =>
        match block_bits workers n_pols nbitsext with
        | Ok bbe =>
          match n_transposes nbitsext bbe with
          | Ok nt2 =>
            let odd := Nat.odd (nt1 + 1 + nt2) in
            let '(bout, bin) := if odd then (tmp, dst) else (dst, tmp) in
            let '(ris, st) := BRs 0 n nbits st in
            let mid :=
              do ris <- ris;
              do b <- interpolate_bit_reverse ris bout src n_pols nbits;
              do r <- all_rounds n_pols nbits bb b bin;
              let '(b, bo, sw) := r in
              do b <- interpolate_prepare workers b n_pols nbits;
              Ok (b, bo, sw) in
            match mid with
            | Ok (b, bo, sw) =>
                let '(ris, st) := BRs 0 n_ext nbitsext st in
                (do ris <- ris;
                 do bo <- bit_reverse ris bo b n_pols nbitsext;
                 do r <- all_rounds n_pols nbitsext bbe bo b;
                 let '(b2, bo2, sw2) := r in
                 (* bin was tmpbuff when odd; the middle reversal swaps once more *)
                 Ok (if xorb odd (xorb (negb sw) sw2) then bo2 else b2), st)
            | e => (do x <- e; Ok [], st)
            end
          | _ => (Panic, st)
          end
        | _ => (Panic, st)
        end
      | _ => (Panic, st)
      end
    | _ => (Panic, st)
    end
  end.
