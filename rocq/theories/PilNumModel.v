(* Model of parse_pil_number, starky/src/types.rs:221-233, on the bytes of the text. The second half,
   from the i128 on, is pil_number in InterpModel. *)
From Verif Require Import Base GlModel CodegenModel InterpModel.
Open Scope Z_scope.
Open Scope res_scope.

(* char::to_digit *)
Definition digit (radix c : Z) : option Z :=
  let v := if (48 <=? c) && (c <=? 57) then c - 48
           else if (97 <=? c) && (c <=? 122) then c - 87
           else if (65 <=? c) && (c <=? 90) then c - 55 else 99 in
  if v <? radix then Some v else None.
Definition i128_ok (k : Z) : bool := (- 2 ^ 127 <=? k) && (k <? 2 ^ 127).

(* core::num from_str_radix for i128: every multiplication and every addition (for a minus sign:
   subtraction) of a digit is checked; an Err is unwrapped by the caller *)
Fixpoint int_digits (radix sg acc : Z) (l : list Z) : res Z :=
  match l with
  | [] => Ok acc
  | c :: r =>
      do d <- unwrap (digit radix c);
      if i128_ok (acc * radix) then
        if i128_ok (acc * radix + sg * d) then int_digits radix sg (acc * radix + sg * d) r else Panic
      else Panic
  end.
Definition int_parse (radix : Z) (l : list Z) : res Z :=
  match l with
  | [] => Panic
  | c :: r =>
      if (c =? 45) || (c =? 43) then match r with [] => Panic | _ => int_digits radix (if c =? 45 then -1 else 1) 0 r end
      else int_digits radix 1 0 l
  end.

(* types.rs:221-233; 48 120 is "0x" *)
Definition parse_pil_number (s : list Z) : res Z :=
  do k <- match s with
          | a :: b :: r => if (a =? 48) && (b =? 120) then int_parse 16 r else int_parse 10 s
          | _ => int_parse 10 s
          end;
  Ok (pil_number k).
