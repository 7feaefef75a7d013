(** The range extractor on the extensions of a file, also those unknown to the
    package, and what it leaves when it raises; meds/extractor.py.  Definitions only.

    Writing one extension happens completely or not at all, and the contents of an
    extension are copied as they are (header cards are not modelled). *)
From Coq Require Import String.
From Verif Require Import Base Img Types MakerFile Extract MakerFail Meta.
Open Scope Z_scope.

(** Contents of an extension: the three tables, an image in one dimension, anything else. *)
Inductive hdata (X : Type) : Type :=
| HObj (rows : list obj)
| HInfo (rows : list info)
| HMeta (x : X)
| HPix (pixels : list Q)
| HOther (x : X).
Arguments HObj {X} rows.
Arguments HInfo {X} rows.
Arguments HMeta {X} x.
Arguments HPix {X} pixels.
Arguments HOther {X} x.
Notation hdu X := (string * hdata X)%type.

(** [infits[name]] and [name in infits]: the first of the name, regardless of case. *)
Definition hfind {X} (f : list (hdu X)) (n : string) : option (hdata X) :=
  option_map snd (find (fun h => String.eqb (lower (fst h)) (lower n)) f).

Definition read_obj {X} (f : list (hdu X)) : res (list obj) :=
  match hfind f "object_data" with Some (HObj l) => Ok l | _ => Err FitsError end.
Definition read_pix {X} (f : list (hdu X)) (n : string) : res (list Q) :=
  match hfind f n with Some (HPix l) => Ok l | _ => Err FitsError end.
(** A whole table, meds/extractor.py 114-118. *)
Definition read_table {X} (f : list (hdu X)) (n : string) : res (hdu X) :=
  match hfind f n with Some h => Ok (n, h) | None => Err FitsError end.

(** meds/extractor.py 57-67 *)
Definition default_ext : list string :=
  ["object_data"; "image_info"; "metadata"; "image_cutouts"; "weight_cutouts"; "seg_cutouts"; "bmask_cutouts"; "psf"; "noise"]%string.

(** meds/extractor.py 124-150: one mosaic, required or if the file has it. *)
Definition cut_hdu {X} (f : list (hdu X)) (a b : Z) (n : string) : res (list (hdu X)) :=
  let* m := read_pix f n in let* x := slice m a b in Ok [(n, HPix x)].
Definition cut_if_there {X} (f : list (hdu X)) (a b : Z) (n : string) : res (list (hdu X)) :=
  match hfind f n with None => Ok [] | Some _ => cut_hdu f a b n end.

(** [hdu.has_data()]; [full]: whether the contents unknown here have rows or pixels. *)
Definition has_data {X} (full : X -> bool) (h : hdata X) : bool :=
  match h with
  | HObj l => negb (zlen l =? 0)
  | HInfo l => negb (zlen l =? 0)
  | HPix l => negb (zlen l =? 0)
  | HMeta x | HOther x => full x
  end.

(** meds/extractor.py 152-160; the comparison with default_ext regards case. *)
Definition to_copy {X} (full : X -> bool) (f : list (hdu X)) : list (hdu X) :=
  filter (fun h => has_data full (snd h) && negb (mem_str (fst h) default_ext)) f.

(** Rows and pixel ranges, meds/extractor.py 91-107. *)
Definition selection {X} (pc : psf_cols) (f : list (hdu X)) (start end_ : Z) : res (list obj * (Z * Z) * (Z * Z)) :=
  let* rows := read_obj f in
  let* obj_data := slice rows start (end_ + 1) in
  let* cr := row_range obj_data in
  let obj_data := if fst cr =? -1 then obj_data else map (shift_start (fst cr)) obj_data in
  let* pr := match hfind f "psf" with
             | Some _ => psf_row_range pc obj_data
             | None => Ok (-1, -1) end in
  Ok (if fst pr =? -1 then obj_data else map (shift_psf_start (fst pr)) obj_data, cr, pr).

(** The writes in turn, meds/extractor.py 109-160; each gives the extensions written. *)
Definition writes {X} (full : X -> bool) (copy_all : bool) (f : list (hdu X)) (sel : list obj * (Z * Z) * (Z * Z))
  : list (res (list (hdu X))) :=
  let '(obj_data, (cstart, cend), (psf_cstart, psf_cend)) := sel in
  [Ok [("object_data"%string, HObj obj_data)];
   let* h := read_table f "image_info" in Ok [h];
   let* h := read_table f "metadata" in Ok [h]]
  ++ (if cstart =? -1
      then map (fun e => Ok [((ctype_name (fst e) ++ "_cutouts")%string, HPix (snd e))]) dummy_ext
      else [cut_hdu f cstart cend "image_cutouts";
            cut_hdu f cstart cend "weight_cutouts";
            cut_hdu f cstart cend "seg_cutouts";
            cut_if_there f cstart cend "bmask_cutouts";
            cut_if_there f cstart cend "noise_cutouts";
            cut_if_there f psf_cstart psf_cend "psf"])
  ++ (if copy_all then map (fun h => Ok [h]) (to_copy full f) else []).

(** meds/extractor.py 86-160 [_extract]: the new file, also after an exception. *)
Definition extract_on_disk {X} (full : X -> bool) (copy_all : bool) (pc : psf_cols) (f : list (hdu X)) (start end_ : Z)
  : run (list (hdu X)) :=
  match selection pc f start end_ with
  | Err e => ([], Some e)
  | Ok sel => loop (fun out w => step out (let* hs := w in Ok (out ++ hs))) (writes full copy_all f sel) []
  end.

(** The names in such a file, for [MEDS(...)] and [validate_meds]. *)
Definition hnames {X} (obj_cols info_cols : list string) (f : list (hdu X)) : vfile :=
  mkVfile (map fst f) obj_cols info_cols.

(** What the accessors of the package see of such a file. *)
Definition ctype_of_ext (n : string) : option ctype :=
  find (fun t => String.eqb (lower n) (ctype_name t ++ "_cutouts")) [TImage; TWeight; TSeg; TBmask; TOrmask; TNoise].
Definition mosaics {X} (f : list (hdu X)) : list (ctype * list Q) :=
  flat_map (fun h => match ctype_of_ext (fst h), snd h with Some t, HPix l => [(t, l)] | _, _ => [] end) f.
Definition meds_of {X} (number_col : bool) (pc : psf_cols) (f : list (hdu X)) : option medsfile :=
  match hfind f "object_data", hfind f "image_info", hfind f "psf" with
  | Some (HObj cat), Some (HInfo i), None => Some (mkMeds cat number_col pc i (mosaics f) None)
  | Some (HObj cat), Some (HInfo i), Some (HPix p) => Some (mkMeds cat number_col pc i (mosaics f) (Some p))
  | _, _, _ => None
  end.
