(** Model of get_uberseg, meds/meds.py 445-508, on arrays with number types: what
    the conversions before the C code (lines 485-491) do to the seg map, the
    weights and the number of the object.  The composite weight and the
    interpolated seg map (lines 465-466) are given: they are modelled in
    Composite.v, and keep the type of their mosaic.  Definitions only.
    Simplified: numbers of different types are compared by value; numpy compares
    64 bit integers with floats in double precision. *)
From Verif Require Import Base Img Types MakerLayout BoundsM Reader Composite Fast3tree Uberseg Single UbersegFl Typed.
Open Scope Z_scope.

(** [==] of two numbers; NaN equals nothing. *)
Definition num_eqb (x y : num) : bool :=
  match x, y with
  | NI a, NI b => a =? b
  | NI a, NF (Fin q) | NF (Fin q), NI a => Qeq_bool (inject_Z a) q
  | NF (Fin p), NF (Fin q) => Qeq_bool p q
  | NF (Inf s), NF (Inf s') => Bool.eqb s s'
  | _, _ => false
  end.

(** Line 469: [numpy.unique(seg)] *)
Fixpoint nuniq (l : list num) : list num :=
  match l with
  | [] => []
  | x :: l' => if existsb (num_eqb x) l' then nuniq l' else x :: nuniq l'
  end.

(** Line 475: [numpy.where(seg != 0)], row-major. *)
Definition obj_inds_t (seg : img num) : list (Z * Z) :=
  filter (fun p => match px seg (fst p) (snd p) with Some s => negb (num_eqb s (NI 0)) | None => false end)
         (positions (nr seg) (nc seg)).

(** [weight[i, j] = 0.]: the zero of the type. *)
Definition zero_of (k : kind) : num := match k with KI _ _ => NI 0 | KF _ => NF (Fin 0) end.

(** Lines 497-504: the Python loops. *)
Definition uberseg_slow_t (seg : img num) (weight : arr) (object_number : num) (inds : list (Z * Z)) : res (img num) :=
  tab2M (nr seg) (nc seg) (fun i j =>
    let* p := argmin (idist2 i j) inds in
    let* segval := px_res seg (fst p) (snd p) in
    let* w := px_res (a_im weight) i j in
    Ok (if negb (num_eqb segval object_number) then zero_of (a_kind weight) else w)).

(** meds/_uberseg.c 104: the format "i" of [PyArg_ParseTuple] takes numbers that
    are integers and fit a C int. *)
Definition c_int (n : num) : res Z :=
  match n with NI z => if fits true 32 z then Ok z else Err OverflowError | NF _ => Err TypeError end.

(** meds/_uberseg.c 84-184 [uberseg_tree] as in UbersegFl.v, on weights that are
    any floats. *)
Definition uberseg_tree_t (fuel : nat) (seg : img Z) (weight : img fl) (object_number : Z) (inds : list (Z * Z))
  : res (img fl) :=
  let* points := tree_points_f seg inds in
  let* t := fast3tree_build_f points in
  let maxr := maxr_f (nr seg) (nc seg) in
  tab2M (nr seg) (nc seg) (fun x y =>
    let* s := px_res seg x y in
    let* w := px_res weight x y in
    if s =? object_number then Ok w
    else if (0 <? s) && negb (s =? object_number) then Ok (Fin 0)
    else
      let* segmin := nearest_seg_f fuel t maxr x y in
      if segmin =? -1 then Ok w
      else if negb (segmin =? object_number) then Ok (Fin 0)
      else Ok w).

(** Lines 468-508.  [ub] is what the processor makes of a float without an int32. *)
Definition uberseg_typed (ub : fl -> Z) (fuel : nat) (weight seg : arr) (object_number : num) (fast : bool) : res arr :=
  if zlen (nuniq (dat (a_im seg))) =? 2 then Ok weight
  else
    let inds := obj_inds_t (a_im seg) in
    if fast then
      let seg := imap (to_int ub true 32) (a_im seg) in
      let w := imap (to_fl false) (a_im weight) in
      let* n := c_int object_number in
      let* r := uberseg_tree_t fuel seg w n inds in
      Ok (mkArr (KF false) (imap NF r))
    else
      let* r := uberseg_slow_t (a_im seg) weight object_number inds in
      Ok (mkArr (a_kind weight) r).
