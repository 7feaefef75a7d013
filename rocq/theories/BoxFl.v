(** Model of the box size of src/make-meds-input.c with the doubles and ints of
    the C code.  [Err OverflowError]: the C standard does not define what happens
    (a double beyond the int, or an int operation that overflows).  Definitions
    only. *)
From Coq Require Import Qround.
From Verif Require Import Base Img Types BoundsM Single Typed LayoutFl CLib CProg.
Open Scope Z_scope.

(** C doubles: division, ceil. *)
Definition fdiv (x y : fl) : fl :=
  match x, y with
  | Fin a, Fin b =>
    if Qeq_bool b 0 then if Qeq_bool a 0 then NaN else Inf (qltb a 0)
    else fround true (a / b)
  | NaN, _ | _, NaN => NaN
  | Inf _, Inf _ => NaN
  | Inf s, Fin b => Inf (xorb s (qltb b 0))
  | Fin _, Inf _ => Fin 0
  end.
Definition fceil (x : fl) : fl := match x with Fin a => Fin (inject_Z (Qceiling a)) | _ => x end.
(** C ints: the value, if it is one. *)
Definition int_value (z : Z) : res Z := if (- 2 ^ 31 <=? z) && (z <? 2 ^ 31) then Ok z else Err OverflowError.
Definition int_cast (x : fl) : res Z :=
  match x with Fin a => int_value (Z.quot (Qnum a) (Zpos (Qden a))) | _ => Err OverflowError end.

(** src/make-meds-input.c 27: the constant as the compiler reads it. *)
Definition FWHM_dbl : fl := fround true FWHM_FAC.
(** src/make-meds-input.c 207-210 [load_rows] *)
Definition ellipticity_fl (a_world b_world : fl) : fl := fsub true (Fin 1) (fdiv b_world a_world).
(** src/make-meds-input.c 324-337 [get_sigma_size] *)
Definition sigma_size_fl (flux_radius ellipticity : fl) : res Z :=
  let sigma := fdiv (fmul true flux_radius (Fin 2)) FWHM_dbl in
  let drad := fmul true sigma (Fin 5) in
  let drad := fmul true drad (fadd true (Fin 1) ellipticity) in
  let drad := fceil drad in
  let* d := int_cast drad in
  int_value (2 * d).
(** src/make-meds-input.c 338-354 [get_box_size] *)
Definition box_size_fl (rowmin rowmax colmin colmax : Z) (flux_radius ellipticity : fl) (minsize maxsize : Z) : res Z :=
  let* dr := int_value (rowmax - rowmin) in
  let* rowsize := int_value (dr + 1) in
  let* dc := int_value (colmax - colmin) in
  let* colsize := int_value (dc + 1) in
  let* sigma_size := sigma_size_fl flux_radius ellipticity in
  let box_size := if colsize <? rowsize then rowsize else colsize in
  let box_size := if box_size <? sigma_size then sigma_size else box_size in
  let box_size := if box_size <? minsize then minsize else box_size in
  let box_size := if maxsize <? box_size then maxsize else box_size in
  Ok (fft_round_size box_size).
(** src/make-meds-input.c 366-393 [main]: the box of a row of the catalog. *)
Definition input_box_fl (rowmin rowmax colmin colmax : Z) (flux_radius a_world b_world : fl) (minarg maxarg : Z) : res Z :=
  box_size_fl rowmin rowmax colmin colmax flux_radius (ellipticity_fl a_world b_world)
    (fft_round_size minarg) (fft_round_size maxarg).
