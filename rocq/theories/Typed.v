(** Model of the number types of the mosaics: numpy's integer and floating point
    types in [_read_image] and [_write_cutout] of meds/maker.py, with rounding,
    overflow, infinities and NaN.  Definitions only. *)
From Coq Require Import String Qabs Qpower.
From Verif Require Import Base Img Types BoundsM Reader MakerLayout MakerWrite MakerFile Single.
Open Scope Z_scope.

(** * Floating point numbers *)

(** A value of type f4 or f8.  The sign of zero is not modelled. *)
Inductive fl : Type := Fin (q : Q) | Inf (neg : bool) | NaN.

(** IEEE 754 single ([false]) and double ([true]): bits of the significand,
    exponent of the smallest number, exponent of overflow. *)
Definition f_prec (dbl : bool) : Z := if dbl then 53 else 24.
Definition f_low (dbl : bool) : Z := if dbl then 1074 else 149.
Definition f_emax (dbl : bool) : Z := if dbl then 1024 else 128.

(** Rounding to nearest, ties to even, of a positive number, with gradual
    underflow. *)
Definition fround_pos (dbl : bool) (x : Q) : Q :=
  let k := Z.min (scale (f_prec dbl) x) (f_low dbl) in
  (inject_Z (half_even (x * Qpower (2#1) k)) * Qpower (2#1) (- k))%Q.
Definition fround (dbl : bool) (x : Q) : fl :=
  let x := Qred x in
  let big := inject_Z (2 ^ f_emax dbl) in
  if qltb 0 x then let v := fround_pos dbl x in if qltb v big then Fin v else Inf false
  else if qltb x 0 then let v := fround_pos dbl (- x) in if qltb v big then Fin (- v) else Inf true
  else Fin 0.

Definition fcast (dbl : bool) (x : fl) : fl := match x with Fin q => fround dbl q | _ => x end.
Definition fsub (dbl : bool) (x y : fl) : fl :=
  match x, y with
  | Fin a, Fin b => fround dbl (a - b)
  | NaN, _ | _, NaN => NaN
  | Inf s, Inf s' => if Bool.eqb s s' then NaN else Inf s
  | Inf s, Fin _ => Inf s
  | Fin _, Inf s => Inf (negb s)
  end.
Definition fmul (dbl : bool) (x y : fl) : fl :=
  match x, y with
  | Fin a, Fin b => fround dbl (a * b)
  | NaN, _ | _, NaN => NaN
  | Inf s, Inf s' => Inf (xorb s s')
  | Inf s, Fin b | Fin b, Inf s => if Qeq_bool b 0 then NaN else Inf (xorb s (qltb b 0))
  end.
(** 1.0 / x for x not negative. *)
Definition finv (dbl : bool) (x : fl) : fl :=
  match x with
  | Fin a => if Qeq_bool a 0 then Inf false else fround dbl (1 / a)
  | Inf _ => Fin 0
  | NaN => NaN
  end.

(** * numpy numbers, types and arrays *)

Inductive num : Type := NI (z : Z) | NF (x : fl).
(** Integer types of [bits] bits, f4 and f8. *)
Inductive kind : Type := KI (signed : bool) (bits : Z) | KF (dbl : bool).

Definition fits (signed : bool) (bits z : Z) : bool :=
  if signed then (- 2 ^ (bits - 1) <=? z) && (z <? 2 ^ (bits - 1)) else (0 <=? z) && (z <? 2 ^ bits).
(** The bits kept when an integer does not fit. *)
Definition wrap (signed : bool) (bits z : Z) : Z :=
  let m := z mod 2 ^ bits in
  if signed && (2 ^ (bits - 1) <=? m) then m - 2 ^ bits else m.

(** Conversion by assignment.  [ub] is what the processor makes of a float that
    has no integer of the type (not defined in C). *)
Definition to_int (ub : fl -> Z) (signed : bool) (bits : Z) (x : num) : Z :=
  match x with
  | NI z => wrap signed bits z
  | NF (Fin q) => if fits signed bits (qtrunc q) then qtrunc q else wrap signed bits (ub (Fin q))
  | NF y => wrap signed bits (ub y)
  end.
Definition to_fl (dbl : bool) (x : num) : fl :=
  match x with NI z => fround dbl (inject_Z z) | NF y => fcast dbl y end.
Definition conv (ub : fl -> Z) (k : kind) (x : num) : num :=
  match k with KI s b => NI (to_int ub s b x) | KF d => NF (to_fl d x) end.

(** numpy.result_type of two arrays. *)
Definition promote (a b : kind) : kind :=
  match a, b with
  | KF d, KF d' => KF (d || d')
  | KF d, KI _ bits | KI _ bits, KF d => KF (d || (16 <? bits))
  | KI s x, KI s' y =>
    if Bool.eqb s s' then KI s (Z.max x y)
    else let bs := if s then x else y in
         let bu := if s then y else x in
         if bu <? bs then KI true bs else if bu <? 64 then KI true (2 * bu) else KF true
  end.
(** numpy.can_cast(a, b, 'same_kind'), required of in-place operations. *)
Definition same_kind (a b : kind) : bool :=
  match a, b with
  | KF _, KI _ _ => false
  | KI true _, KI false _ => false
  | _, _ => true
  end.

Record arr : Type := mkArr { a_kind : kind; a_im : img num }.

(** What differs between versions of numpy: the type of [scale**2] for a scale
    of given type, the type of array * scalar, and whether Python integers that
    do not fit raise. *)
Record rules : Type := mkRules { r_pow : bool -> bool; r_mul : bool -> bool -> bool; r_strict : bool }.
(** numpy 1: scalars do not change the type of float arrays, float32 ** int is float64. *)
Definition numpy1 : rules := mkRules (fun _ => true) (fun a _ => a) false.
(** numpy 2: scalars count like arrays, Python integers are weak. *)
Definition numpy2 : rules := mkRules (fun d => d) (fun a s => a || s) true.

(** meds/maker.py 549: [im -= bkg]. *)
Definition isub (ub : fl -> Z) (a b : arr) : res arr :=
  let k := promote (a_kind a) (a_kind b) in
  if same_kind k (a_kind a) then
    let op := fun x y => match k with
              | KI s n => NI (wrap s n (to_int ub s n x - to_int ub s n y))
              | KF d => NF (fsub d (to_fl d x) (to_fl d y)) end in
    let* im := img_zip (fun x y => conv ub (a_kind a) (op x y)) (a_im a) (a_im b) in
    Ok (mkArr (a_kind a) im)
  else Err TypeError.

(** The scale: Python's 1.0 when image_info has no such column
    (meds/maker.py 620-628), else a numpy scalar; integer columns are not
    modelled. *)
Inductive scalar : Type := SOne | SNp (dbl : bool) (x : fl).

(** meds/maker.py 564: [im *= scale]. *)
Definition imul (R : rules) (a : arr) (s : scalar) : res arr :=
  match a_kind a with
  | KI _ _ => Err TypeError
  | KF d =>
    let op := match s with
              | SOne => fun x => fmul d x (Fin 1)
              | SNp ds y => let d' := r_mul R d ds in fun x => fmul d' (fcast d' x) (fcast d' y)
              end in
    Ok (mkArr (KF d) (imap (fun x => NF (fcast d (op (to_fl d x)))) (a_im a)))
  end.

(** meds/maker.py 581: [1.0 / scale ** 2]; the power is taken to be the product
    rounded once. *)
Definition inv_square (R : rules) (s : scalar) : scalar :=
  match s with
  | SOne => SOne
  | SNp ds y => let d := r_pow R ds in SNp d (finv d (fmul d (fcast d y) (fcast d y)))
  end.

(** meds/maker.py 585-596 [_check_bad_bmask] and [im[w] = 0.0], line 576. *)
Definition zero_of (k : kind) : num := match k with KI _ _ => NI 0 | KF _ => NF (Fin 0) end.
Definition zero_unusable (R : rules) (bad : Z) (a bm : arr) : res arr :=
  match a_kind bm with
  | KF _ => Err TypeError
  | KI s n =>
    if r_strict R && negb (fits s n bad) then Err OverflowError else
    let* im := img_zip (fun x b => match b with
                        | NI z => if negb (Z.land z bad =? 0) then zero_of (a_kind a) else x
                        | NF _ => x end) (a_im a) (a_im bm) in
    Ok (mkArr (a_kind a) im)
  end.

(** * Reading and writing *)

(** A path of image_info, as [path], with the type of the pixels. *)
Inductive tpath : Type := QBlank | QNone | QFile (a : arr).
Record tsource : Type := mkTsource {
  ts_bytes : bool;
  ts_image : tpath; ts_bkg : tpath; ts_weight : tpath; ts_seg : tpath;
  ts_bmask : tpath; ts_ormask : tpath; ts_noise : tpath;
  ts_scale : scalar }.

(** meds/maker.py 598-618 [_read_one_image] *)
Definition read_tpath (bytes : bool) (p : tpath) : res (option arr) :=
  match p with
  | QBlank => Ok None
  | QNone => if bytes then Err FitsError else Ok None
  | QFile a => Ok (Some a)
  end.

(** meds/maker.py 525-583 [_read_image] *)
Definition read_typed (R : rules) (ub : fl -> Z) (unusable : option Z) (s : tsource) (t : ctype) : res (option arr) :=
  match t with
  | TImage =>
    let* im := read_tpath (ts_bytes s) (ts_image s) in
    let* bkg := read_tpath (ts_bytes s) (ts_bkg s) in
    match im with
    | None => Err TypeError
    | Some im =>
      let* im := match bkg with Some b => isub ub im b | None => Ok im end in
      let* im := imul R im (ts_scale s) in Ok (Some im)
    end
  | TWeight =>
    let* im := read_tpath (ts_bytes s) (ts_weight s) in
    let* im :=
      match unusable with
      | None => Ok im
      | Some bad =>
        let* bm := read_tpath (ts_bytes s) (ts_bmask s) in
        match bm with
        | None => Ok im
        | Some bm =>
          match im with
          | None => Err TypeError
          | Some im => let* im' := zero_unusable R bad im bm in Ok (Some im')
          end
        end
      end in
    match im with
    | None => Err TypeError
    | Some im => let* im := imul R im (inv_square R (ts_scale s)) in Ok (Some im)
    end
  | TSeg => read_tpath (ts_bytes s) (ts_seg s)
  | TBmask => read_tpath (ts_bytes s) (ts_bmask s)
  | TOrmask => read_tpath (ts_bytes s) (ts_ormask s)
  | TNoise => read_tpath (ts_bytes s) (ts_noise s)
  end.

(** meds/maker.py 270-271: [zeros(...)] of the type and [subim += default].  The
    defaults of image and weight are Python floats, the others Python integers
    (meds/defaults.py 8-13). *)
Definition fill_typed (R : rules) (t : ctype) (k : kind) : res num :=
  match t with
  | TImage | TWeight => match k with KF _ => Ok (NF (Fin 0)) | KI _ _ => Err TypeError end
  | TSeg => Ok (zero_of k)
  | TBmask =>
    match k with
    | KF d => Ok (NF (fround d (inject_Z (2 ^ 30))))
    | KI s n => if fits s n (2 ^ 30) then Ok (NI (2 ^ 30))
                else if r_strict R then Err OverflowError else Ok (NI (wrap s n (2 ^ 30)))
    end
  | TOrmask | TNoise => Err KeyError
  end.

(** meds/maker.py 211-293 for one type: [subim[...] = read_im] converts to the
    configured type, which is also that of the extension. *)
Definition write_typed (R : rules) (ub : fl -> Z) (unusable : option Z) (k : kind) (cat : list obj)
  (srcs : list tsource) (t : ctype) (hdu : list num) : res (list num) :=
  write_cutouts (fill_typed R t k) cat (zlen srcs)
    (fun file_id => let* s := py_index srcs file_id in
                    let* o := read_typed R ub unusable s t in
                    Ok (option_map (fun a => imap (conv ub k) (a_im a)) o)) hdu.

(** A file: the catalog and the extensions by type. *)
Record tfile : Type := mkTfile { tf_cat : list obj; tf_ext : ctype -> option (list num) }.
Definition tset (e : ctype -> option (list num)) (t : ctype) (m : list num) : ctype -> option (list num) :=
  fun t' => if ctype_eqb t t' then Some m else e t'.

(** meds/maker.py 119-120 *)
Definition write_types_typed (R : rules) (ub : fl -> Z) (unusable : option Z) (kinds : ctype -> kind) (cat : list obj)
  (srcs : list tsource) (types : list ctype) (e : ctype -> option (list num)) : res (ctype -> option (list num)) :=
  foldM (fun e t =>
    match e t with
    | None => Err FitsError
    | Some hdu => let* hdu' := write_typed R ub unusable (kinds t) cat srcs t hdu in Ok (tset e t hdu')
    end) types e.

(** meds/maker.py 61-132 without psf_data: as [make_meds], with the configured
    types of the mosaics [kinds] (meds/defaults.py 44-49). *)
Record trow : Type := mkTrow { tr_image : image; tr_src : tsource }.
Definition make_typed (R : rules) (ub : fl -> Z) (c : lconf) (unusable : option Z) (kinds : ctype -> kind)
  (types : list string) (rows : list trow) (input : list obj) (junk : ctype -> Z -> num) : res tfile :=
  let* names := set_cutout_types types in
  let* tys := mapM (fun s => match ctype_of s with Some t => Ok t | None => Err ValueError end) names in
  let* ct := build_layout c (map tr_image rows) (init_cat c (map tr_image rows) input) in
  let reserved := fun t => if existsb (ctype_eqb t) tys then Some (map (junk t) (zrange (snd ct))) else None in
  let* e := write_types_typed R ub unusable kinds (fst ct) (map tr_src rows) tys reserved in
  Ok (mkTfile (fst ct) e).

(** meds/defaults.py 44-49 *)
Definition default_kinds (t : ctype) : kind :=
  match t with TImage | TWeight | TNoise => KF false | TSeg | TBmask | TOrmask => KI true 32 end.

(** meds/meds.py 191-223 [get_cutout]: the array read has the type of the extension. *)
Definition get_cutout_typed (f : tfile) (iobj icut : Z) (t : ctype) : res (img num) :=
  let* o := check_indices (mkMeds (tf_cat f) true PsfNone [] [] None) iobj (Some icut) in
  let* s := get_slot o icut in
  match tf_ext f t with
  | None => Err ValueError
  | Some m =>
    let* imflat := slice m (s_start s) (s_start s + o_box o * o_box o) in
    reshape imflat (o_box o) (o_box o)
  end.
