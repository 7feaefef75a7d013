(** Model of the fixed-length text columns of image_info and of the metadata,
    meds/util.py 243-298 and meds/maker.py.  Definitions only. *)
From Coq Require Import String Ascii.
From Verif Require Import Base Img Types MakerLayout WcsSel.
Open Scope Z_scope.

(** The characters of a str; the ones above 255 behave as those from 128 to 255. *)
Definition text : Type := list ascii.
Definition code (c : ascii) : Z := Z.of_nat (nat_of_ascii c).
Definition of_str (s : string) : text := list_ascii_of_string s.
Definition to_str (t : text) : string := string_of_list_ascii t.

(** Drop the characters with property [p] at the start, at the end. *)
Fixpoint lstrip (p : ascii -> bool) (t : text) : text :=
  match t with [] => [] | c :: t' => if p c then lstrip p t' else t end.
Definition rstrip (p : ascii -> bool) (t : text) : text := rev (lstrip p (rev t)).

Definition is_nul (c : ascii) : bool := code c =? 0.
(** bytes.strip() without arguments: space, tab, newline, vertical tab, form
    feed, carriage return *)
Definition is_space (c : ascii) : bool := (code c =? 32) || ((9 <=? code c) && (code c <=? 13)).
Definition strip (t : text) : text := rstrip is_space (lstrip is_space t).

(** info['image_path'][i] = t for a column of type 'S%d' % len (meds/util.py
    262-292): ASCII only, cut to the length of the column, filled with NULs. *)
Definition set_text (len : Z) (t : text) : res text :=
  if forallb (fun c => code c <? 128) t
  then let s := firstn (Z.to_nat len) t in Ok (s ++ repeat zero (Z.to_nat len - length s))%list
  else Err ValueError.

(** info['image_path'][i]: numpy drops the NULs at the end. *)
Definition get_text (b : text) : text := rstrip is_nul b.

(** What opening the file again gives for the column, if the FITS library fills
    with the character [pad] *)
Definition on_disk (pad : ascii) (b : text) : text :=
  (get_text b ++ repeat pad (length b - length (get_text b)))%list.

(** meds/maker.py 228, 606, 783, 925, 942: image_info[...][file_id].strip() *)
Definition maker_path (b : text) : text := strip (get_text b).

(** meds/maker.py 942-947 with the columns of [row] given as texts: the row of
    image_info that [get_wcs] works on, of columns of path_len and wcs_len. *)
Definition stored_row (path_len wcs_len : Z) (row : irow) : res irow :=
  let* p := set_text path_len (of_str (i_path row)) in
  let* w := set_text wcs_len (of_str (i_text row)) in
  Ok (mkIrow (to_str (maker_path p)) (i_ext row) (i_offset row) (to_str (get_text w))).

(** meds/maker.py 1202-1224: a version is written to a column of its own length,
    ('numpy_version', 'S%d' % len(numpy_version)). *)
Definition version_text (v : text) : res text := set_text (zlen v) v.
