(** Model of the columns of object_data in class MEDSMaker, meds/maker.py, and of
    meds/util.py 95-202.  Definitions only.  A column has a name, a shape (one
    value per row, or an array of fixed width per row) and its rows; kinds and
    sizes of numbers are not modelled. *)
From Coq Require Import String.
From Verif Require Import Base Types Meta.
Open Scope Z_scope.

(** The type of a column: [None] is a scalar, [Some w] an array of width w. *)
Record col (A : Type) : Type := mkCol { c_name : string; c_width : option Z; c_rows : list (list A) }.
Arguments mkCol {A}. Arguments c_name {A}. Arguments c_width {A}. Arguments c_rows {A}.
Definition descr : Type := (string * option Z)%type.
Definition ctable (A : Type) : Type := list (col A).
Definition cnames {A} (t : ctable A) : list string := map c_name t.
Definition cdescr {A} (t : ctable A) : list descr := map (fun c => (c_name c, c_width c)) t.
Definition len_of (w : option Z) : Z := match w with None => 1 | Some w => w end.

(** meds/util.py 145-164 [get_meds_input_dtype]: the names. *)
Definition input_names : list string := ["id"; "box_size"; "ra"; "dec"]%string.

(** meds/util.py 167-202 [get_meds_output_dtype]: the first five columns are scalars. *)
Definition output_dtype (ncutout_max : Z) (extra : list descr) : list descr :=
  map (fun n => (n, None)) (firstn 5 (output_names [])) ++
  map (fun n => (n, Some ncutout_max)) (skipn 5 (output_names [])) ++ extra.

(** meds/util.py 95-118 [get_meds_output_struct]: zeros, then the default in all
    columns but ncutout; numpy refuses a name that occurs twice. *)
Definition get_meds_output_struct {A} (zero defval : A) (nobj ncutout_max : Z) (extra : list descr) : res (ctable A) :=
  let dtype := output_dtype ncutout_max extra in
  if nodup_names (map fst dtype) then
    Ok (map (fun d => mkCol (fst d) (snd d)
              (repeat (repeat (if mem_str (fst d) ["ncutout"%string] then zero else defval) (Z.to_nat (len_of (snd d))))
                      (Z.to_nat nobj))) dtype)
  else Err ValueError.

(** [dst[name] = src[name]] for columns of [n] rows: numpy's broadcasting. *)
Definition assign {A} (n : Z) (dst : option Z) (src : option Z) (rows : list (list A)) : res (list (list A)) :=
  match dst, src with
  | None, None => Ok rows
  | Some w, Some m =>
    if m =? w then Ok rows
    else if m =? 1 then Ok (map (fun r => concat (repeat r (Z.to_nat w))) rows) else Err ValueError
  | Some w, None =>
    if n =? w then Ok (repeat (concat rows) (Z.to_nat n))
    else if n =? 1 then Ok (map (fun r => concat (repeat r (Z.to_nat w))) rows) else Err ValueError
  | None, Some m => if (n =? 1) && (m =? 1) then Ok rows else Err ValueError
  end.

(** Replace the rows of the column of that name. *)
Fixpoint put_col {A} (n : Z) (t : ctable A) (src : col A) : res (ctable A) :=
  match t with
  | [] => Ok []
  | c :: t' =>
    if String.eqb (c_name c) (c_name src) then
      let* rows := assign n (c_width c) (c_width src) (c_rows src) in
      Ok (mkCol (c_name c) (c_width c) rows :: t')
    else let* t'' := put_col n t' src in Ok (c :: t'')
  end.

(** esutil's copy_fields: every column of [src] that [dst] has; tables of [n] rows. *)
Definition copy_fields {A} (n : Z) (src dst : ctable A) : res (ctable A) := foldM (put_col n) src dst.

(** meds/maker.py 1311-1327 [_check_required_obj_data_fields] *)
Definition check_required {A} (t : ctable A) : res unit :=
  match filter (fun n => negb (mem_str n (cnames t))) input_names with [] => Ok tt | _ :: _ => Err ValueError end.

(** meds/maker.py 1379-1391 [_get_psf_dtype] *)
Definition psf_dtype (nmax : Z) : list descr :=
  map (fun n => (n, Some nmax)) ["psf_row_size"; "psf_col_size"; "psf_cutout_row"; "psf_cutout_col"; "psf_start_row"]%string.

(** meds/maker.py 1357-1377 [_get_extra_fields]; [psf]: there is psf_data. *)
Definition get_extra_fields {A} (psf : bool) (t : ctable A) (nmax : Z) : list descr :=
  let skip := map fst (psf_dtype nmax) in
  filter (fun d => negb (mem_str (fst d) (output_names [])) && negb (mem_str (fst d) skip)) (cdescr t)
  ++ if psf then psf_dtype nmax else [].

(** meds/maker.py 1329-1355 [_get_full_obj_data]; [nmax0]: ncutout_max or the number
    of images. *)
Definition get_full_obj_data {A} (zero defval : A) (psf : bool) (nmax0 : Z) (nobj : Z) (t : ctable A) : res (ctable A) :=
  let nmax := if nmax0 <? 2 then 2 else nmax0 in
  let* d := get_meds_output_struct zero defval nobj nmax (get_extra_fields psf t nmax) in
  copy_fields nobj t d.

(** meds/maker.py 1223-1230 [_set_obj_data] *)
Definition set_obj_data {A} (zero defval : A) (psf : bool) (nmax0 : Z) (nobj : Z) (t : ctable A) : res (ctable A) :=
  let* _ := check_required t in get_full_obj_data zero defval psf nmax0 nobj t.

Fixpoint find_col {A} (t : ctable A) (n : string) : option (col A) :=
  match t with
  | [] => None
  | c :: t' => if String.eqb (c_name c) n then Some c else find_col t' n
  end.

(** The body of the loop of meds/maker.py 973-982. *)
Definition resize_col {A} (nobj new_nmax : Z) (t : ctable A) (c : col A) : res (col A) :=
  match find_col t (c_name c) with
  | None => Ok c
  | Some s =>
    let required := mem_str (c_name c) (output_names []) in
    let in_psf := mem_str (c_name c) (map fst (psf_dtype new_nmax)) in
    let arr := match c_width c with Some _ => true | None => false end in
    if arr && required || in_psf then
      match c_width s with
      | None => Err IndexError   (* [:, 0:n] of a one-dimensional array *)
      | Some m => let* rows := assign nobj (c_width c) (Some (Z.min m new_nmax))
                                 (map (firstn (Z.to_nat new_nmax)) (c_rows s)) in
                  Ok (mkCol (c_name c) (c_width c) rows)
      end
    else let* rows := assign nobj (c_width c) (c_width s) (c_rows s) in
         Ok (mkCol (c_name c) (c_width c) rows)
  end.

(** meds/maker.py 949-986 [_make_resized_data]; [maxcut]: the largest ncutout. *)
Definition make_resized_cols {A} (zero defval : A) (psf : bool) (nobj maxcut : Z) (t : ctable A) : res (ctable A) :=
  let new_nmax := if maxcut <? 2 then 2 else maxcut in
  let* d := get_meds_output_struct zero defval nobj new_nmax (get_extra_fields psf t new_nmax) in
  mapM (resize_col nobj new_nmax t) d.

(** Selection of rows, [obj_data[w]] of meds/maker.py 664. *)
Definition take_rows {A} (t : ctable A) (idx : list Z) : res (ctable A) :=
  mapM (fun c => let* rows := mapM (fun i => match zget (c_rows c) i with Some r => Ok r | None => Err IndexError end) idx in
                 Ok (mkCol (c_name c) (c_width c) rows)) t.

(** The scalar or per-cutout columns the layout sets (meds/maker.py 711-758, 893-901,
    1278-1307, 1149-1159): their rows become what [fill] says, all other columns
    stay. *)
Definition LAYOUT_COLUMNS : list string :=
  ["box_size"; "ncutout"; "file_id"; "start_row"; "orig_row"; "orig_col"; "orig_start_row"; "orig_start_col";
   "cutout_row"; "cutout_col"; "dudrow"; "dudcol"; "dvdrow"; "dvdcol";
   "psf_row_size"; "psf_col_size"; "psf_cutout_row"; "psf_cutout_col"; "psf_start_row"]%string.
Definition layout_cols {A} (fill : string -> list (list A) -> list (list A)) (t : ctable A) : ctable A :=
  map (fun c => if mem_str (c_name c) LAYOUT_COLUMNS then mkCol (c_name c) (c_width c) (fill (c_name c) (c_rows c)) else c) t.

(** Constructor, trimming to the rows [idx], layout, resizing, last assignments: the
    object_data that is written (meds/maker.py 61-90, 134-140). *)
Definition written_columns {A} (zero defval : A) (psf : bool) (nmax0 nobj : Z) (idx : list Z) (maxcut : Z)
  (fill fill' : string -> list (list A) -> list (list A)) (t : ctable A) : res (ctable A) :=
  let* d := set_obj_data zero defval psf nmax0 nobj t in
  let* d := take_rows d idx in
  let* d := make_resized_cols zero defval psf (zlen idx) maxcut (layout_cols fill d) in
  Ok (layout_cols fill' d).
