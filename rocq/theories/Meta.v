(** Model of meds/util.py (column lists, validate_meds) and of the metadata and
    image_info checks of meds/maker.py.  Definitions only. *)
From Coq Require Import String Ascii.
From Verif Require Import Base Img Types MakerFile.
Open Scope Z_scope.

(** meds/util.py 5 *)
Definition IMAGE_INFO_TYPES : list string := ["image"; "weight"; "seg"; "bmask"; "bkg"]%string.

(** meds/util.py 243-299 [get_image_info_dtype]: the names; [wcs]: wcs_len is given. *)
Definition image_info_names (wcs : bool) (extra : list string) : list string :=
  flat_map (fun t => [t ++ "_path"; t ++ "_ext"]%string) IMAGE_INFO_TYPES
  ++ ["image_id"; "image_flags"; "magzp"; "scale"; "position_offset"]%string
  ++ (if wcs then ["wcs"%string] else []) ++ extra.

(** meds/util.py 162-202 [get_meds_output_dtype]: the names. *)
Definition output_names (extra : list string) : list string :=
  ["id"; "box_size"; "ra"; "dec"; "ncutout"; "file_id"; "start_row"; "orig_row"; "orig_col"; "orig_start_row";
   "orig_start_col"; "cutout_row"; "cutout_col"; "dudrow"; "dudcol"; "dvdrow"; "dvdcol"]%string ++ extra.

Definition mem_str (n : string) (l : list string) : bool := existsb (String.eqb n) l.

(** meds/maker.py 1400-1418 [_check_image_info] *)
Definition check_image_info (cols : list string) : res unit :=
  let missing := filter (fun n => negb (mem_str n cols)) (image_info_names false []) in
  match missing with [] => Ok tt | _ :: _ => Err ValueError end.

(** A structured array: its columns, each with one value per row. *)
Definition table : Type := list (string * list string).
Definition names (t : table) : list string := map fst t.

(** The four versions of packages and the format version. *)
Record versions : Type := mkVersions { v_numpy : string; v_esutil : string; v_fitsio : string; v_meds : string; v_fmt : string }.
Definition VERSION_NAMES : list string :=
  ["numpy_version"; "esutil_version"; "fitsio_version"; "meds_version"; "meds_fmt_version"]%string.

(** [zeros(n, dtype)]: numpy refuses a field name that occurs twice. *)
Fixpoint nodup_names (l : list string) : bool :=
  match l with [] => true | n :: l' => negb (mem_str n l') && nodup_names l' end.
Definition zeros_table (n : Z) (cols : list string) : res table :=
  if nodup_names cols then Ok (map (fun c => (c, repeat ""%string (Z.to_nat n))) cols) else Err ValueError.

(** [t[name] = values] *)
Fixpoint set_col (t : table) (name : string) (vals : list string) : table :=
  match t with
  | [] => []
  | (n, v) :: t' => if String.eqb n name then (n, vals) :: t' else (n, v) :: set_col t' name vals
  end.

(** meds/maker.py 1185-1221 [_set_meta_data]; [nmeta]: the number of rows of the
    input. *)
Definition set_meta_data (vs : versions) (meta_in : option table) (nmeta : Z) : res table :=
  let mdt := match meta_in with Some t => names t | None => [] end in
  let nmeta := match meta_in with Some _ => nmeta | None => 1 end in
  let* meta := zeros_table nmeta (mdt ++ VERSION_NAMES) in
  let meta := match meta_in with
              | Some t => fold_left (fun m c => set_col m (fst c) (snd c)) t meta
              | None => meta end in
  let put m n v := set_col m n (repeat v (Z.to_nat nmeta)) in
  let meta := put meta "numpy_version"%string (v_numpy vs) in
  let meta := put meta "esutil_version"%string (v_esutil vs) in
  let meta := put meta "fitsio_version"%string (v_fitsio vs) in
  let meta := put meta "meds_version"%string (v_meds vs) in
  Ok (put meta "meds_fmt_version"%string (v_fmt vs)).

(** str.lower of ascii names *)
Definition lower_char (c : ascii) : ascii :=
  let n := N_of_ascii c in if (65 <=? n)%N && (n <=? 90)%N then ascii_of_N (n + 32) else c.
Fixpoint lower (s : string) : string :=
  match s with EmptyString => EmptyString | String c s' => String (lower_char c) (lower s') end.

(** The names in a file: extensions and columns of the two tables. *)
Record vfile : Type := mkVfile { vf_ext : list string; vf_obj_cols : list string; vf_info_cols : list string }.

Inductive vreport : Type := MissingExt (n : string) | MissingObj (n : string) | MissingInfo (n : string).

(** fitsio finds extensions regardless of case. *)
Definition has_ext (f : vfile) (n : string) : bool := mem_str (lower n) (map lower (vf_ext f)).

(** meds/meds.py 177-185 [MEDS.__init__] *)
Definition open_meds (f : vfile) : res unit :=
  if has_ext f "object_data" && has_ext f "image_info" && has_ext f "metadata" then Ok tt else Err FitsError.

(** meds/util.py 16-92 [validate_meds] *)
Definition validate_meds (f : vfile) : res (list vreport) :=
  let* _ := open_meds f in
  let exts := filter (fun n => negb (has_ext f n)) ["object_data"; "image_info"; "image_cutouts"]%string in
  let onames := map lower (vf_obj_cols f) in
  let objs := filter (fun n => negb (mem_str (lower n) onames)) (output_names []) in
  let inames := map lower (vf_info_cols f) in
  let infos := filter (fun n => negb (mem_str n inames))
    ["image_path"; "image_ext"; "image_id"; "image_flags"; "magzp"; "scale"]%string in
  Ok (map MissingExt exts ++ map MissingObj objs ++ map MissingInfo infos).

(** Names in a file written by the maker: meds/maker.py 114-128 [_write_data] and the
    extension names of 1424-1433, 194, 468; the columns of 1329-1391. *)
Definition names_of (f : medsfile) (extra info_cols : list string) (psf_info : bool) : vfile :=
  mkVfile (["object_data"; "image_info"; "metadata"]%string
           ++ map (fun e => (ctype_name (fst e) ++ "_cutouts")%string) (m_ext f)
           ++ match m_psf f with Some _ => ["psf"%string] | None => [] end
           ++ if psf_info then ["psf_info"%string] else [])
    (output_names extra) info_cols.
