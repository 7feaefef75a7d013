(** Model of make_wcs_positions of meds/util.py on whole arrays with floating point
    numbers.  Definitions only. *)
From Verif Require Import Base Img Types Typed LayoutFl.
Open Scope Z_scope.

(** One element of the structured array: meds/util.py 321 (all fields "f8"). *)
Record fpos : Type := mkFpos { fw_row : fl; fw_col : fl; fz_row : fl; fz_col : fl }.

(** Assigning an array to a field of [n] elements: the sizes agree or the array has one
    element. *)
Definition field_of (n : Z) (l : list fl) : res (list fl) :=
  if zlen l =? n then Ok l
  else match l with
       | [x] => Ok (repeat x (Z.to_nat n))
       | _ => Err ValueError
       end.

Fixpoint zip_pos (a b c d : list fl) : list fpos :=
  match a, b, c, d with
  | w :: a, x :: b, y :: c, z :: d => mkFpos w x y z :: zip_pos a b c d
  | _, _, _, _ => []
  end.

(** meds/util.py 302-338 [make_wcs_positions].  [d]: the arrays have double precision;
    the offset is a Python float and takes the type of the array.  Storing a single or a
    double in a field "f8" is exact. *)
Definition positions_fl (d : bool) (row col : list fl) (offset : fl) (inverse : bool) : res (list fpos) :=
  let n := zlen row in
  let o := fcast d offset in
  let* r := field_of n row in
  let* c := field_of n col in
  if inverse then
    let* wr := field_of n (map (fun x => fadd d x o) row) in
    let* wc := field_of n (map (fun x => fadd d x o) col) in
    Ok (zip_pos wr wc r c)
  else
    let* zr := field_of n (map (fun x => fsub d x o) row) in
    let* zc := field_of n (map (fun x => fsub d x o) col) in
    Ok (zip_pos r c zr zc).
