(** Model of the text that src/make-meds-input.c prints: the conversions %ld, %d
    and %.16g of printf.  Definitions only.  The signs of zero and of NaN are not
    modelled. *)
From Coq Require Import String Ascii Qpower.
From Verif Require Import Base Img Types BoundsM Single Typed CLib CProg.
Open Scope Z_scope.

Definition text : Type := list ascii.
Definition chr (d : Z) : ascii := ascii_of_nat (Z.to_nat (48 + d)).

(** Decimal digits of a number that is not negative. *)
Fixpoint digs (fuel : nat) (n : Z) : list Z :=
  match fuel with
  | O => []
  | S fuel' => if n <? 10 then [n] else digs fuel' (n / 10) ++ [n mod 10]
  end.
Definition dec (n : Z) : list Z := digs (S (Z.to_nat (Z.log2 n))) n.

(** %ld, %d *)
Definition print_int (n : Z) : text :=
  if n <? 0 then "-"%char :: map chr (dec (- n)) else map chr (dec n).

(** Drop the zeros at the end. *)
Fixpoint drop_zeros (ds : list Z) : list Z :=
  match ds with
  | [] => []
  | d :: ds' => match drop_zeros ds' with [] => if d =? 0 then [] else [d] | l => d :: l end
  end.

Definition ten (k : Z) : Q := Qpower (10#1) k.
(** The exponent X with 10^X <= q < 10^(X+1), for q > 0. *)
Definition exponent (q : Q) : Z :=
  let e := zlen (dec (Qnum q)) - zlen (dec (Zpos (Qden q))) in
  if Qle_bool (ten e) q then e else e - 1.
(** %e with 15 digits after the point: significand and exponent, the exact value
    rounded to nearest, ties to even. *)
Definition sig16 (q : Q) : Z * Z :=
  let x := exponent q in
  let m := half_even (q * ten (15 - x)) in
  if m =? 10 ^ 16 then (10 ^ 15, x + 1) else (m, x).

(** The point and the digits after it, nothing when there are none. *)
Definition fraction (ds : list Z) : text :=
  match ds with [] => [] | _ => "."%char :: map chr ds end.
(** The exponent, of two digits at least. *)
Definition print_exp (x : Z) : text :=
  let ds := dec (Z.abs x) in
  "e"%char :: (if x <? 0 then "-"%char else "+"%char) :: map chr (if (length ds <? 2)%nat then 0 :: ds else ds).
(** %.16g of a positive number. *)
Definition print_pos (q : Q) : text :=
  let '(m, x) := sig16 q in
  let ds := dec m in
  if (x <? -4) || (16 <=? x) then
    map chr (firstn 1 ds) ++ fraction (drop_zeros (skipn 1 ds)) ++ print_exp x
  else if 0 <=? x then
    map chr (firstn (Z.to_nat (x + 1)) ds) ++ fraction (drop_zeros (skipn (Z.to_nat (x + 1)) ds))
  else chr 0 :: fraction (repeat 0 (Z.to_nat (- x - 1)) ++ drop_zeros ds).
(** %.16g *)
Definition print_fl (v : fl) : text :=
  match v with
  | NaN => ["n"; "a"; "n"]%char
  | Inf true => ["-"; "i"; "n"; "f"]%char
  | Inf false => ["i"; "n"; "f"]%char
  | Fin q => let q := Qred q in
    if qltb 0 q then print_pos q else if qltb q 0 then "-"%char :: print_pos (- q) else [chr 0]
  end.

(** src/make-meds-input.c 297-309: "%ld %.16g %.16g %d\n" *)
Definition nl : ascii := ascii_of_nat 10.
Definition sp : ascii := ascii_of_nat 32.
Definition print_line (l : Z * fl * fl * Z) : text :=
  let '(id, row, col, box) := l in
  print_int id ++ [sp] ++ print_fl row ++ [sp] ++ print_fl col ++ [sp] ++ print_int box ++ [nl].
Definition print_lines (ls : list (Z * fl * fl * Z)) : text := flat_map print_line ls.

(** The standard output of the program: positions are the doubles read from the
    catalog (src/make-meds-input.c 196-197). *)
Definition fl_line (l : line) : Z * fl * fl * Z :=
  let '(id, row, col, box) := l in (id, Fin row, Fin col, box).
Definition stdout_text (r : run line) : text := print_lines (map fl_line (r_out r)).
