(* Model of groth16/src/json_utils.rs and of repr_to_big (algebraic/src/utils.rs:11-13): field elements as text, and the
   files of verifying keys and proofs. A text is the list of the codes of its characters. An element of a field is its
   value below the modulus q. The JSON around the texts is serde's and left out; so are protocol and curve, which are
   not read back. *)
From Verif Require Import Base CodegenModel PilNumModel.
Open Scope Z_scope.
Open Scope list_scope.
Open Scope res_scope.

Definition text : Type := list Z.
(* the character of a digit, and the value of a list of digits *)
Definition dchar (d : Z) : Z := if d <? 10 then 48 + d else 87 + d.
Definition horner (r : Z) (acc : Z) (ds : list Z) : Z := fold_left (fun a d => a * r + d) ds acc.

(** * num-bigint *)

(* BigUint::to_str_radix: no leading zeros, except for zero itself *)
Fixpoint digs (fuel : nat) (r v : Z) : list Z :=
  match fuel with O => [] | S f => if v =? 0 then [] else digs f r (v / r) ++ [v mod r] end.
Definition show_radix (r v : Z) : text := if v =? 0 then [48] else map dchar (digs (Z.to_nat (Z.log2 v + 1)) r v).
(* BigUint::from_str_radix(..).unwrap(): one plus sign is skipped, and so are underscores after the first character *)
Fixpoint big_digits (r acc : Z) (l : text) : res Z :=
  match l with
  | [] => Ok acc
  | c :: l => if c =? 95 then big_digits r acc l else do d <- unwrap (digit r c); big_digits r (acc * r + d) l
  end.
Definition big_parse (r : Z) (l : text) : res Z :=
  let l := match l with c :: t => if c =? 43 then match t with d :: _ => if d =? 43 then l else t | [] => t end else l | [] => l end in
  match l with
  | [] => Panic
  | c :: _ => if c =? 95 then Panic else big_digits r 0 l
  end.

(** * One field element: lines 122-145, without the GPU features *)

(* ff's Display of a representation: "0x" and the 64-bit limbs with 16 digits each, the highest first *)
Fixpoint fixed (n : nat) (v : Z) : list Z := match n with O => [] | S k => fixed k (v / 16) ++ [v mod 16] end.
Definition show_repr (limbs : nat) (v : Z) : text := [48; 120] ++ map dchar (fixed (16 * limbs) v).
(* utils.rs:11-13 *)
Definition repr_to_big (t : text) : res text := do v <- big_parse 16 (skipn 2 t); Ok (show_radix 10 v).
(* lines 123-131 *)
Definition render_scalar_to_str (limbs : nat) (v : Z) (to_hex : bool) : res text :=
  if to_hex then Ok (show_repr limbs v) else repr_to_big (show_repr limbs v).
Definition starts_0x (t : text) : bool := match t with a :: b :: _ => (a =? 48) && (b =? 120) | _ => false end.
(* ff's PrimeField::from_str(..).unwrap(): decimal, no leading zero but "0", computed in the field *)
Fixpoint ff_digits (q acc : Z) (l : text) : res Z :=
  match l with
  | [] => Ok acc
  | c :: l => do d <- unwrap (digit 10 c); ff_digits q ((acc * 10 + d) mod q) l
  end.
Definition ff_parse (q : Z) (l : text) : res Z :=
  match l with
  | [] => Panic
  | [c] => if c =? 48 then Ok 0 else ff_digits q 0 l
  | c :: _ => if c =? 48 then Panic else ff_digits q 0 l
  end.
(* lines 133-140 *)
Definition render_str_to_scalar (q : Z) (t : text) : res Z :=
  if starts_0x t then do v <- big_parse 16 (skipn 2 t); ff_parse q (show_radix 10 v) else ff_parse q t.
(* lines 142-145 *)
Definition to_public_input (q : Z) (l : list text) : res (list Z) := mapM (render_str_to_scalar q) l.

(** * One field element with the GPU features: lines 202-255 *)

(* lines 203-215; bytes is 48 *)
Definition render_fp_to_str (bytes : nat) (v : Z) (to_hex : bool) : res text :=
  let h := [48; 120] ++ map dchar (fixed (2 * bytes) v) in
  if to_hex then Ok h else repr_to_big h.
(* hex::decode(..).expect(..) of a text of even length, read as a big-endian number *)
Fixpoint hex_decode (acc : Z) (l : text) : res Z :=
  match l with [] => Ok acc | c :: l => do d <- unwrap (digit 16 c); hex_decode (acc * 16 + d) l end.
(* lines 218-232 and 235-249 (bytes is 48 and 32): more bytes than there is room for, and values from the modulus on, panic *)
Definition render_str_to_fp (bytes : nat) (q : Z) (t : text) : res Z :=
  do h <- (if starts_0x t then Ok (skipn 2 t) else do v <- big_parse 10 t; Ok (show_radix 16 v));
  let h := if Nat.eqb (Nat.modulo (length h) 2) 0 then h else 48 :: h in
  do v <- hex_decode 0 h;
  if Nat.leb (Nat.div (length h) 2) bytes then (if v <? q then Ok v else Panic) else Panic.

(** * Keys and proofs: lines 285-345 *)

Section Files.
  (* the points of the two groups; their coordinates, and the constructor from coordinates, are the curve library's *)
  Variables (P1 P2 : Type) (xy1 : P1 -> Z * Z) (xy2 : P2 -> (Z * Z) * (Z * Z)) (mk1 : Z -> Z -> P1) (mk2 : Z * Z -> Z * Z -> P2).
  Variables (show : Z -> res text) (read : text -> res Z).
  Record g1t : Type := mkG1 { g1_x : text; g1_y : text }.
  Record g2t : Type := mkG2 { g2_x : text * text; g2_y : text * text }.
  (* lines 94-101 with 148-161, 176-189 or 259-272 *)
  Definition parse_g1_json (p : P1) : res g1t := let '(x, y) := xy1 p in do a <- show x; do b <- show y; Ok (mkG1 a b).
  Definition parse_g2_json (p : P2) : res g2t :=
    let '((x0, x1), (y0, y1)) := xy2 p in
    do a <- show x0; do b <- show x1; do c <- show y0; do d <- show y1; Ok (mkG2 (a, b) (c, d)).
  (* lines 163-171, 191-199 or 274-282 *)
  Definition to_g1 (g : g1t) : res P1 := do x <- read (g1_x g); do y <- read (g1_y g); Ok (mk1 x y).
  Definition to_g2 (g : g2t) : res P2 :=
    do x0 <- read (fst (g2_x g)); do x1 <- read (snd (g2_x g)); do y0 <- read (fst (g2_y g)); do y1 <- read (snd (g2_y g));
    Ok (mk2 (x0, x1) (y0, y1)).
  Record vkey : Type := mkVK { vk_alpha1 : P1; vk_beta1 : P1; vk_beta2 : P2; vk_gamma2 : P2; vk_delta1 : P1; vk_delta2 : P2; vk_ic : list P1 }.
  Record vkfile : Type := mkVF { vf_alpha1 : g1t; vf_beta1 : g1t; vf_beta2 : g2t; vf_gamma2 : g2t; vf_delta1 : g1t; vf_delta2 : g2t; vf_ic : list g1t }.
  Record proof : Type := mkPf { pf_a : P1; pf_b : P2; pf_c : P1 }.
  Record prooffile : Type := mkPF { ff_a : g1t; ff_b : g2t; ff_c : g1t }.
  (* lines 285-303 *)
  Definition serialize_vk (k : vkey) : res vkfile :=
    do a <- parse_g1_json (vk_alpha1 k); do b <- parse_g1_json (vk_beta1 k); do c <- parse_g2_json (vk_beta2 k); do d <- parse_g2_json (vk_gamma2 k);
    do e <- parse_g1_json (vk_delta1 k); do f <- parse_g2_json (vk_delta2 k); do g <- mapM parse_g1_json (vk_ic k); Ok (mkVF a b c d e f g).
  (* lines 305-315 *)
  Definition serialize_proof (p : proof) : res prooffile :=
    do a <- parse_g1_json (pf_a p); do b <- parse_g2_json (pf_b p); do c <- parse_g1_json (pf_c p); Ok (mkPF a b c).
  (* lines 317-333 *)
  Definition to_verification_key (f : vkfile) : res vkey :=
    do a <- to_g1 (vf_alpha1 f); do b <- to_g1 (vf_beta1 f); do c <- to_g2 (vf_beta2 f); do d <- to_g2 (vf_gamma2 f);
    do e <- to_g1 (vf_delta1 f); do g <- to_g2 (vf_delta2 f); do h <- mapM to_g1 (vf_ic f); Ok (mkVK a b c d e g h).
  (* lines 335-343 *)
  Definition to_proof (f : prooffile) : res proof := do a <- to_g1 (ff_a f); do b <- to_g2 (ff_b f); do c <- to_g1 (ff_c f); Ok (mkPf a b c).
End Files.
