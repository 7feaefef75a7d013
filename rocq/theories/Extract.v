(** Model of the extractors, meds/extractor.py and meds/number_extractor.py.
    Rows outside the table and pixels outside a mosaic are outside the fitsio
    contract and give [FitsError].  Extensions unknown to the package, which
    copy_all=True copies too, are in ExtractExt.v.  Definitions only. *)
From Coq Require Import String.
From Verif Require Import Base Img Types.
Open Scope Z_scope.

(** * Range extractor *)

(** meds/extractor.py 174-191 [_get_row_range] *)
Definition row_range (data : list obj) : res (Z * Z) :=
  match filter (fun o => 0 <? o_ncut o) data with
  | [] => Ok (-1, -1)
  | first :: w =>
    let last := List.last w first in
    let* s0 := get_slot first 0 in
    let npix_last := (o_box last) ^ 2 in
    let* s1 := get_slot last (o_ncut last - 1) in
    Ok (s_start s0, s_start s1 + npix_last)
  end.

(** meds/extractor.py 273-283: pixels of the last psf; the row/col sizes are
    indexed with two indices, so one per object raises IndexError. *)
Definition psf_npix_last (cols : psf_cols) (o : obj) (k : Z) : res Z :=
  match cols with
  | PsfBoxCut => let* s := get_slot o k in Ok ((s_psf_box s) ^ 2)
  | PsfBoxObj => Ok ((o_psf_box o) ^ 2)
  | PsfRCCut => let* s := get_slot o k in Ok (s_psf_nr s * s_psf_nc s)
  | PsfRCObj => Err IndexError
  | PsfNone => Err ValueError
  end.

(** meds/extractor.py 258-287 [get_psf_row_range] *)
Definition psf_row_range (cols : psf_cols) (data : list obj) : res (Z * Z) :=
  match filter (fun o => 0 <? o_ncut o) data with
  | [] => Ok (-1, -1)
  | first :: w =>
    let last := List.last w first in
    let* s0 := get_slot first 0 in
    let* npix_last := psf_npix_last cols last (o_ncut last - 1) in
    let* s1 := get_slot last (o_ncut last - 1) in
    Ok (s_psf_start s0, s_psf_start s1 + npix_last)
  end.

(** [obj_data["start_row"] -= cstart]: every slot, used or not. *)
Definition shift_start (c : Z) (o : obj) : obj :=
  set_slots o (map (fun s => set_start s (s_start s - c)) (o_slots o)).
Definition shift_psf_start (c : Z) (o : obj) : obj :=
  set_slots o (map (fun s => set_psf_start s (s_psf_start s - c)) (o_slots o)).

(** [infits[name]]: unknown extensions raise. *)
Definition in_ext (f : medsfile) (t : ctype) : res (list Q) :=
  match ext_find (m_ext f) t with Some m => Ok m | None => Err FitsError end.

(** One required mosaic, meds/extractor.py 125-135. *)
Definition cut_ext (f : medsfile) (a b : Z) (t : ctype) : res (ctype * list Q) :=
  let* m := in_ext f t in let* x := slice m a b in Ok (t, x).
(** One optional mosaic, meds/extractor.py 137-145. *)
Definition cut_opt (f : medsfile) (a b : Z) (t : ctype) : res (list (ctype * list Q)) :=
  match ext_find (m_ext f) t with
  | Some m => let* x := slice m a b in Ok [(t, x)]
  | None => Ok []
  end.

(** meds/extractor.py 162-172, meds/number_extractor.py 228-237 [_write_dummy] *)
Definition dummy_ext : list (ctype * list Q) :=
  let d := inject_Z (-9999) in
  [(TImage, [d; d]); (TWeight, [0%Q; 0%Q]); (TSeg, [d; d]); (TBmask, [d; d])].

(** meds/extractor.py 152-160, the cutout extensions that are not in
    default_ext (57-67; it lists "noise", not "noise_cutouts"). *)
Definition copied_ext (f : medsfile) : list (ctype * list Q) :=
  filter (fun e => match fst e with TOrmask | TNoise => negb (zlen (snd e) =? 0) | _ => false end) (m_ext f).

(** meds/extractor.py 86-160 [MEDSExtractor._extract] *)
Definition extract_range (copy_all : bool) (f : medsfile) (start end_ : Z) : res medsfile :=
  let* obj_data := slice (m_cat f) start (end_ + 1) in
  let* cr := row_range obj_data in
  let '(cstart, cend) := cr in
  let obj_data := if cstart =? -1 then obj_data else map (shift_start cstart) obj_data in
  let* pr := match m_psf f with
             | Some _ => psf_row_range (m_psf_cols f) obj_data
             | None => Ok (-1, -1) end in
  let '(psf_cstart, psf_cend) := pr in
  let obj_data := if psf_cstart =? -1 then obj_data else map (shift_psf_start psf_cstart) obj_data in
  let copied := if copy_all then copied_ext f else [] in
  if cstart =? -1
  then Ok (mkMeds obj_data (m_number_col f) (m_psf_cols f) (m_info f) (dummy_ext ++ copied) None)
  else
    let* image := cut_ext f cstart cend TImage in
    let* weight := cut_ext f cstart cend TWeight in
    let* seg := cut_ext f cstart cend TSeg in
    let* bmask := cut_opt f cstart cend TBmask in
    let* noise := cut_opt f cstart cend TNoise in
    let* psf := match m_psf f with
                | Some p => let* x := slice p psf_cstart psf_cend in Ok (Some x)
                | None => Ok None end in
    Ok (mkMeds obj_data (m_number_col f) (m_psf_cols f) (m_info f)
          ([image; weight; seg] ++ bmask ++ noise ++ copied) psf).

(** * Number extractor *)

Definition number_at (cat : list obj) (i n : Z) : bool :=
  match zget cat i with Some o => o_number o =? n | None => false end.

(** meds/number_extractor.py 66-85 [_get_inds], one number. *)
Definition get_ind (cat : list obj) (number : Z) : res Z :=
  let q := if number_at cat (number - 1) number then [number - 1]
           else filter (fun i => number_at cat i number) (zrange (zlen cat)) in
  match q with [i] => Ok i | _ => Err AssertionError end.

Definition get_inds (f : medsfile) (numbers : list Z) : res (list Z) :=
  if m_number_col f then mapM (get_ind (m_cat f)) numbers else Err ValueError.

(** meds/number_extractor.py 87-130 [_get_row_ranges]; [acc] holds the ranges
    with the last one first. *)
Definition row_ranges_step (acc : list (Z * Z)) (o : obj) : res (list (Z * Z)) :=
  if 0 <? o_ncut o then
    let* s := get_slot o 0 in
    let end_ := s_start s + (o_box o) ^ 2 * o_ncut o in
    match acc with
    | [] => Ok [(s_start s, end_)]
    | (a, b) :: acc' => if s_start s =? b then Ok ((a, end_) :: acc') else Ok ((s_start s, end_) :: acc)
    end
  else Ok acc.
Definition row_ranges (data : list obj) : res (list (Z * Z)) :=
  let* acc := foldM row_ranges_step data [] in
  Ok (match acc with [] => [(-1, -1)] | _ => rev acc end).

(** meds/number_extractor.py 247-266 [get_psf_row_ranges] *)
Definition psf_row_ranges (cols : psf_cols) (data : list obj) : res (list (Z * Z)) :=
  match filter (fun o => 0 <? o_ncut o) data with
  | [] => Ok [(-1, -1)]
  | w => mapM (fun o => psf_row_range cols [o]) w
  end.

(** meds/number_extractor.py 132-141 [_get_data_from_ranges] *)
Definition data_from_ranges (ranges : list (Z * Z)) (data : list Q) : res (list Q) :=
  let* l := mapM (fun r => slice data (fst r) (snd r)) ranges in Ok (concat l).

(** meds/number_extractor.py 155-161: start rows from [loc] on. *)
Definition renumber_obj (o : obj) (loc : Z) : res (obj * Z) :=
  let* st := foldM (fun (st : list slot * Z) j =>
      let '(sl, loc) := st in
      let* sl' := modify sl (Z.to_nat j) (fun s => set_start s loc) in
      Ok (sl', loc + (o_box o) ^ 2)) (zrange (o_ncut o)) (o_slots o, loc) in
  Ok (set_slots o (fst st), snd st).
Fixpoint renumber (data : list obj) (loc : Z) : res (list obj) :=
  match data with
  | [] => Ok []
  | o :: data' => let* ol := renumber_obj o loc in
                  let* r := renumber data' (snd ol) in Ok (fst ol :: r)
  end.

(** meds/number_extractor.py 164-176: psf start rows; the row/col sizes must be
    per cutout. *)
Definition renumber_psf_obj (cols : psf_cols) (o : obj) (loc : Z) : res (obj * Z) :=
  let* st := foldM (fun (st : list slot * Z) j =>
      let '(sl, loc) := st in
      let* sl' := modify sl (Z.to_nat j) (fun s => set_psf_start s loc) in
      let* s := py_index sl j in
      let* npix := match cols with
                   | PsfRCCut => Ok (s_psf_nr s * s_psf_nc s)
                   | PsfRCObj => Err IndexError
                   | _ => Err ValueError end in
      Ok (sl', loc + npix)) (zrange (o_ncut o)) (o_slots o, loc) in
  Ok (set_slots o (fst st), snd st).
Fixpoint renumber_psf (cols : psf_cols) (data : list obj) (loc : Z) : res (list obj) :=
  match data with
  | [] => Ok []
  | o :: data' => let* ol := renumber_psf_obj cols o loc in
                  let* r := renumber_psf cols data' (snd ol) in Ok (fst ol :: r)
  end.

Definition first_is_minus_one (ranges : list (Z * Z)) : res bool :=
  match ranges with [] => Err IndexError | (a, _) :: _ => Ok (a =? -1) end.

(** One mosaic, meds/number_extractor.py 191-219. *)
Definition cut_ranges_ext (f : medsfile) (ranges : list (Z * Z)) (t : ctype) : res (ctype * list Q) :=
  let* m := in_ext f t in let* x := data_from_ranges ranges m in Ok (t, x).

(** meds/number_extractor.py 143-226 [MEDSNumberExtractor._extract]; [order]
    is the order in which fitsio returns the requested rows (as requested or
    sorted, depending on its version). *)
Definition extract_numbers (order : list Z -> list Z) (f : medsfile) (numbers : list Z) : res medsfile :=
  let* inds := get_inds f numbers in
  let* obj_data := mapM (py_index (m_cat f)) (order inds) in
  let* ranges := row_ranges obj_data in
  let* none := first_is_minus_one ranges in
  let* obj_data := if none then Ok obj_data else renumber obj_data 0 in
  let* pr := match m_psf f with
             | None => Ok ([], obj_data)
             | Some _ =>
               let* psf_ranges := psf_row_ranges (m_psf_cols f) obj_data in
               let* pnone := first_is_minus_one psf_ranges in
               let* obj_data := if pnone then Ok obj_data else renumber_psf (m_psf_cols f) obj_data 0 in
               Ok (psf_ranges, obj_data) end in
  let '(psf_ranges, obj_data) := pr in
  if none
  then Ok (mkMeds obj_data (m_number_col f) (m_psf_cols f) (m_info f) dummy_ext None)
  else
    let* image := cut_ranges_ext f ranges TImage in
    let* weight := cut_ranges_ext f ranges TWeight in
    let* seg := cut_ranges_ext f ranges TSeg in
    let* bmask := cut_ranges_ext f ranges TBmask in
    let* psf := match m_psf f with
                | Some p => let* x := data_from_ranges psf_ranges p in Ok (Some x)
                | None => Ok None end in
    Ok (mkMeds obj_data (m_number_col f) (m_psf_cols f) (m_info f) [image; weight; seg; bmask] psf).

(** [numpy.argsort] of the numbers, meds/number_extractor.py 46-47. *)
Fixpoint zinsert (x : Z) (l : list Z) : list Z :=
  match l with [] => [x] | y :: l' => if y <? x then y :: zinsert x l' else x :: l end.
Definition zsort (l : list Z) : list Z := fold_right zinsert [] l.

Fixpoint has_repeat (l : list Z) : bool :=
  match l with [] => false | x :: l' => existsb (Z.eqb x) l' || has_repeat l' end.

(** * Catalog extractor, meds/extractor.py 231-250 *)
Definition extract_catalog (f : medsfile) : medsfile :=
  mkMeds (m_cat f) (m_number_col f) (m_psf_cols f) (m_info f) [] None.

(** * Life of an extractor object and its files *)

(** A file is absent, holds a MEDS file with its metadata table, or was left
    unfinished by an error. *)
Inductive fstate (M : Type) : Type :=
| Absent
| Unfinished
| Present (f : medsfile) (meta : M).
Arguments Absent {M}.
Arguments Unfinished {M}.
Arguments Present {M} f meta.

(** Files by identity; names are resolved to identities by the system. *)
Definition disk (M : Type) : Type := Z -> fstate M.
Definition put {M} (d : disk M) (p : Z) (s : fstate M) : disk M := fun q => if q =? p then s else d q.

Inductive request : Type :=
| ByRange (start end_ : Z) (copy_all : bool)
| ByNumbers (numbers : list Z)
| CatalogOnly.

(** The part of __init__ before self.sub_file and self.cleanup are set:
    meds/number_extractor.py 35-40. *)
Definition early_check (r : request) : res unit :=
  match r with
  | ByNumbers l => if has_repeat l then Err AssertionError else Ok tt
  | _ => Ok tt
  end.

(** _check_inputs: meds/extractor.py 193-200, 253-255; meds/number_extractor.py 239-244. *)
Definition check_inputs (meds_file sub_file : string) (r : request) : res unit :=
  if String.eqb meds_file sub_file then Err ValueError
  else match r with
       | ByRange a b _ => if b <? a then Err ValueError else Ok tt
       | ByNumbers [] => Err ValueError
       | _ => Ok tt
       end.

Definition extraction (order : list Z -> list Z) (r : request) (f : medsfile) : res medsfile :=
  match r with
  | ByRange a b ca => extract_range ca f a b
  | ByNumbers l => extract_numbers order f (zsort l)
  | CatalogOnly => Ok (extract_catalog f)
  end.

(** _extract around the data: the input is opened, then the output is created
    afresh (clobber=True removes an old file), then written. *)
Definition do_extract {M} (resolve : string -> Z) (order : list Z -> list Z) (r : request)
  (meds_file sub_file : string) (d : disk M) : disk M * res unit :=
  match d (resolve meds_file) with
  | Present f meta =>
    let d' := put d (resolve sub_file) Unfinished in
    match extraction order r f with
    | Ok g => (put d' (resolve sub_file) (Present g meta), Ok tt)
    | Err e => (d', Err e)
    end
  | _ => (d, Err FitsError)
  end.

(** close, called by __exit__ and __del__: meds/extractor.py 76-84. *)
Definition close {M} (resolve : string -> Z) (cleanup : bool) (sub_file : string) (d : disk M) : disk M :=
  if cleanup
  then match d (resolve sub_file) with Absent => d | _ => put d (resolve sub_file) Absent end
  else d.

(** Constructor, then destruction of the object (also after an exception). *)
Definition extractor_life {M} (resolve : string -> Z) (order : list Z -> list Z) (r : request)
  (meds_file sub_file : string) (cleanup : bool) (d : disk M) : disk M * res unit :=
  match early_check r with
  | Err e => (d, Err e)            (* __del__ fails: the attributes do not exist *)
  | Ok _ =>
    let '(d', x) := match check_inputs meds_file sub_file r with
                    | Err e => (d, Err e)
                    | Ok _ => do_extract resolve order r meds_file sub_file d
                    end in
    (close resolve cleanup sub_file d', x)
  end.
