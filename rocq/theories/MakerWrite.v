(** Model of the writing part of class MEDSMaker, meds/maker.py.  Definitions only. *)
From Verif Require Import Base Img Types.

(** meds/maker.py 470-512 [_get_clipped_boxes] *)
Definition get_clipped_boxes (dim start bsize : Z) : (Z * Z) * (Z * Z) :=
  let obox0 := start in let obox1 := start + bsize in
  let box0 := 0 in let box1 := bsize in
  let '(obox0, box0) := if obox0 <? 0 then (0, 0 - start) else (obox0, box0) in
  let im_max := dim in
  let diff := im_max - obox1 in
  let '(obox1, box1) := if diff <? 0 then (im_max, box1 + diff) else (obox1, box1) in
  ((obox0, obox1), (box0, box1)).

(** meds/maker.py 256-293 [_write_cutout] up to the final write: the stamp for
    a box at (orow, ocol).  [fill] is default_values[cutout_type], KeyError when
    the type is not in the table. *)
Definition make_stamp {A} (fill : res A) (bsize orow ocol : Z) (im_data : img A) : res (img A) :=
  let '((or0, or1), (r0, r1)) := get_clipped_boxes (nr im_data) orow bsize in
  let '((oc0, oc1), (c0, c1)) := get_clipped_boxes (nc im_data) ocol bsize in
  if (bsize <? 0) then Err ValueError else   (* zeros((bsize, bsize)) *)
  let* v := fill in
  let* subim := full bsize bsize v in
  let ok := (0 <=? or0) && (0 <=? or1) && (or0 <? or1)
            && (0 <=? oc0) && (0 <=? oc1) && (oc0 <? oc1) in
  if ok then
    let* read_im := sub2d im_data or0 or1 oc0 oc1 in
    paste subim r0 r1 c0 c1 read_im
  else Ok subim.

(** meds/maker.py 256-293 [_write_cutout] *)
Definition write_cutout {A} (fill : res A) (o : obj) (icut : Z) (hdu : list A) (im_data : img A)
  : res (list A) :=
  let* s := get_slot o icut in
  let* subim := make_stamp fill (o_box o) (s_osr s) (s_osc s) im_data in
  write_at hdu (s_start s) (dat subim).

(** meds/maker.py 241-254: the loops over objects and cutouts for one file. *)
Definition write_file_cutouts {A} (fill : res A) (cat : list obj) (file_id : Z) (im_data : img A)
  (hdu : list A) : res (list A) :=
  foldM (fun hdu o =>
    foldM (fun hdu icut =>
      let* s := get_slot o icut in
      if s_file s =? file_id then write_cutout fill o icut hdu im_data else Ok hdu)
    (zrange (o_ncut o)) hdu) cat hdu.

(** meds/maker.py 211-254 [_write_cutouts]; [read file_id] is [_read_image]. *)
Definition write_cutouts {A} (fill : res A) (cat : list obj) (nfile : Z)
  (read : Z -> res (option (img A))) (hdu : list A) : res (list A) :=
  foldM (fun hdu file_id =>
    let* im := read file_id in
    match im with
    | None => Ok hdu
    | Some im_data => write_file_cutouts fill cat file_id im_data hdu
    end) (zrange nfile) hdu.

(** meds/defaults.py 8-13: default_values has no entry for ormask and noise. *)
Definition default_values (t : ctype) : res Q :=
  match t with
  | TImage => Ok 0%Q
  | TWeight => Ok 0%Q
  | TSeg => Ok 0%Q
  | TBmask => Ok (inject_Z (2 ^ 30))
  | TOrmask | TNoise => Err KeyError
  end.

(** A path of image_info after .strip(): blank, the text "none" (any case), or
    the image read from the file. *)
Inductive path (A : Type) : Type := PBlank | PNone | PFile (im : img A).
Arguments PBlank {A}.
Arguments PNone {A}.
Arguments PFile {A} im.

(** The image files of one row of image_info.  [src_bytes]: the path columns
    have the bytes dtype 'S' that get_image_info_struct makes
    (meds/util.py 262-281), so the text comparison with "none" is never true in
    Python 3 and fitsio is asked to open a file of that name. *)
Record source : Type := mkSource {
  src_bytes : bool;
  src_image : path Q; src_bkg : path Q; src_weight : path Q;
  src_seg : path Z; src_bmask : path Z; src_ormask : path Z; src_noise : path Q;
  src_scale : Q }.

(** meds/maker.py 598-618 [_read_one_image] *)
Definition read_path {A} (bytes : bool) (p : path A) : res (option (img A)) :=
  match p with
  | PBlank => Ok None
  | PNone => if bytes then Err FitsError else Ok None
  | PFile im => Ok (Some im)
  end.

(** Elementwise combination of arrays of the same shape; other shapes raise
    (broadcasting is not modelled). *)
Definition img_zip {A B C} (f : A -> B -> C) (a : img A) (b : img B) : res (img C) :=
  if (nr a =? nr b) && (nc a =? nc b)
  then Ok (mkImg (nr a) (nc a) (map (fun p => f (fst p) (snd p)) (combine (dat a) (dat b))))
  else Err ValueError.

(** meds/maker.py 525-583 [_read_image].  [unusable]: the 'unusable_bmask'
    configuration entry.  [im *= scale] on None raises TypeError, as does
    [im -= bkg]; indexing None likewise.  Integer types are injected into Q. *)
Definition read_image (unusable : option Z) (s : source) (t : ctype) : res (option (img Q)) :=
  let zpath (p : path Z) := let* o := read_path (src_bytes s) p in Ok (option_map (imap inject_Z) o) in
  match t with
  | TImage =>
    let* im := read_path (src_bytes s) (src_image s) in
    let* bkg := read_path (src_bytes s) (src_bkg s) in
    match im with
    | None => Err TypeError
    | Some im =>
      let* im := match bkg with
                 | Some b => img_zip (fun x y => (x - y)%Q) im b
                 | None => Ok im end in
      Ok (Some (imap (fun x => (x * src_scale s)%Q) im))
    end
  | TWeight =>
    let* im := read_path (src_bytes s) (src_weight s) in
    let* im :=
      match unusable with
      | None => Ok im
      | Some bad =>
        let* bm := read_path (src_bytes s) (src_bmask s) in
        match bm with
        | None => Ok im
        | Some bm =>
          match im with
          | None => Err TypeError
          | Some im =>
            let* im' := img_zip (fun x b => if negb (Z.land b bad =? 0) then 0%Q else x) im bm in
            Ok (Some im')
          end
        end
      end in
    match im with
    | None => Err TypeError
    | Some im =>
      if Qeq_bool (src_scale s) 0 then Err ZeroDivisionError (* numpy: inf with a warning; excluded *)
      else Ok (Some (imap (fun x => (x * (1 / (src_scale s * src_scale s)))%Q) im))
    end
  | TSeg => zpath (src_seg s)
  | TBmask => zpath (src_bmask s)
  | TOrmask => zpath (src_ormask s)
  | TNoise => read_path (src_bytes s) (src_noise s)
  end.

(** meds/maker.py 159-188: reserve one mosaic per type; its content is whatever
    the disk holds ([junk]). *)
Definition reserve (types : list ctype) (total : Z) (junk : ctype -> Z -> Q) : list (ctype * list Q) :=
  map (fun t => (t, map (junk t) (zrange total))) types.

(** meds/maker.py 119-120 over the types, [self.fits[tkey]] by name. *)
Definition write_types (unusable : option Z) (cat : list obj) (srcs : list source)
  (types : list ctype) (ext : list (ctype * list Q)) : res (list (ctype * list Q)) :=
  foldM (fun ext t =>
    match ext_find ext t with
    | None => Err FitsError
    | Some hdu =>
      let* hdu' := write_cutouts (default_values t) cat (zlen srcs)
                     (fun file_id => let* s := py_index srcs file_id in read_image unusable s t) hdu in
      Ok (ext_set ext t hdu')
    end) types ext.
